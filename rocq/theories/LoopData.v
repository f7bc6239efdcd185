(* Generated by tools/gen_loop.py from wilson/match/smeft_loop.py: the right-hand sides of the
   assignments c[k] = ... in _match_all_array, lines 60-149 (18565 terms).
   The terms of one assignment that have the same tensor and the same scalar Wilson coefficient are
   collected.  aEvan, ..., eEvan are one variable (all are 1).  np.diag(m) is the operand OD of the
   einsum "pr", (C.T * m).T is "pr,p->pr", C * m is "pr,r->pr", and C[2,2] is "TT,TT" with kdt. *)
From Coq Require Import List ZArith String.
From Verif Require Import BetaSpec LoopSyntax.
Import ListNotations.
Local Open Scope Z_scope.
Local Open Scope string_scope.
Local Open Scope list_scope.
(* sums in denominators *)
Definition s0 : psum := [(1, [(Bt, 1)]); ((-1), [(BW, 1)])].
Definition s1 : psum := [(1, [(Bt, 1)]); (1, [(BW, 1)])].
Definition s2 : psum := [(4, [(Bt, 2)]); ((-4), [(BW, 2)])].
Definition s3 : psum := [(2, [(Bt, 2)]); ((-2), [(BW, 2)])].
Definition s4 : psum := [(1, [(Bt, 2)]); ((-1), [(BW, 2)])].
Definition s5 : psum := [(1, [(BH, 1)]); ((-1), [(BZ, 1)])].
Definition s6 : psum := [(1, [(BH, 1)]); (1, [(BZ, 1)])].
Definition s7 : psum := [((-1), [(Bt, 1)]); (1, [(BW, 1)])].
Definition s8 : psum := [(32, [(Bt, 2)]); ((-32), [(BW, 2)])].
Definition s9 : psum := [(96, [(Bt, 2); (BNc, 1)]); ((-96), [(BW, 2); (BNc, 1)])].
Definition s10 : psum := [(8, [(BH, 2); (BNc, 1)]); ((-8), [(BW, 2); (BNc, 1)])].
Definition s11 : psum := [(4, [(BH, 2); (BNc, 1)]); ((-4), [(BW, 2); (BNc, 1)])].
Definition s12 : psum := [(16, [(BH, 2); (BNc, 1)]); ((-16), [(BW, 2); (BNc, 1)])].
Definition s13 : psum := [(1, [(BH, 1)]); ((-1), [(Bt, 1)])].
Definition s14 : psum := [(1, [(BH, 1)]); (1, [(Bt, 1)])].
Definition s15 : psum := [(1, [(BH, 1)]); ((-1), [(BW, 1)])].
Definition s16 : psum := [(1, [(BH, 1)]); (1, [(BW, 1)])].
Definition s17 : psum := [(8, [(Bt, 2); (BNc, 1)]); ((-8), [(BW, 2); (BNc, 1)])].
Definition s18 : psum := [(1, [(Bt, 1)]); ((-1), [(BZ, 1)])].
Definition s19 : psum := [(1, [(Bt, 1)]); (1, [(BZ, 1)])].
Definition s20 : psum := [(1, [(BW, 1)]); ((-1), [(BZ, 1)])].
Definition s21 : psum := [(1, [(BW, 1)]); (1, [(BZ, 1)])].
Definition s22 : psum := [(4, [(BH, 4); (BNc, 1)]); ((-4), [(BW, 2); (BH, 2); (BNc, 1)])].
Definition s23 : psum := [(48, [(BW, 2); (BZ, 2); (BNc, 1)]); ((-48), [(BZ, 4); (BNc, 1)])].
Definition s24 : psum := [((-1), [(BW, 1)]); (1, [(BZ, 1)])].
Definition s25 : psum := [(1, [(BH, 2)]); ((-1), [(BW, 2)])].
Definition s26 : psum := [(2, [(BH, 2)]); ((-2), [(BW, 2)])].
Definition s27 : psum := [(2, [(BH, 4)]); ((-2), [(BW, 2); (BH, 2)])].
Definition s28 : psum := [(4, [(Bt, 2); (BNc, 1)]); ((-4), [(BW, 2); (BNc, 1)])].
Definition s29 : psum := [((-1), [(BW, 2)]); (1, [(BZ, 2)])].
Definition s30 : psum := [(64, [(Bt, 2)]); ((-64), [(BW, 2)])].
Definition s31 : psum := [(128, [(Bt, 2); (BNc, 1)]); ((-128), [(BW, 2); (BNc, 1)])].
Definition s32 : psum := [(16, [(Bt, 2); (BNc, 1)]); ((-16), [(BW, 2); (BNc, 1)])].
Definition s33 : psum := [(8, [(Bt, 2)]); ((-8), [(BW, 2)])].
Definition s34 : psum := [(4, [(BH, 2)]); ((-4), [(BW, 2)])].
Definition s35 : psum := [(4, [(BH, 4)]); ((-4), [(BW, 2); (BH, 2)])].
Definition s36 : psum := [(1, [(BH, 2)]); ((-1), [(BZ, 2)])].
Definition s37 : psum := [(32, [(BH, 2)]); ((-32), [(BZ, 2)])].
Definition s38 : psum := [(64, [(BH, 4)]); ((-64), [(BZ, 2); (BH, 2)])].
Definition s39 : psum := [(32, [(BH, 4)]); ((-32), [(BZ, 2); (BH, 2)])].
Definition s40 : psum := [(1, [(BW, 2)]); ((-1), [(BZ, 2)])].
Definition s41 : psum := [(8, [(BW, 2); (BZ, 2)]); ((-8), [(BZ, 4)])].
Definition s42 : psum := [((-1), [(BH, 1)]); (1, [(BZ, 1)])].
Definition s43 : psum := [((-1), [(BZ, 1); (BH, 2)]); (1, [(BZ, 3)])].
Definition s44 : psum := [(32, [(BZ, 1); (BH, 2)]); ((-32), [(BZ, 3)])].
Definition s45 : psum := [(32, [(BZ, 1); (BH, 2); (Bv, 1)]); ((-32), [(BZ, 3); (Bv, 1)])].
Definition s46 : psum := [(96, [(BZ, 1); (BH, 2)]); ((-96), [(BZ, 3)])].
Definition s47 : psum := [(96, [(BZ, 1); (BH, 2); (Bv, 1)]); ((-96), [(BZ, 3); (Bv, 1)])].
Definition loop_sums : list psum := [s0; s1; s2; s3; s4; s5; s6; s7; s8; s9; s10; s11; s12; s13; s14; s15; s16; s17; s18; s19; s20; s21; s22; s23; s24; s25; s26; s27; s28; s29; s30; s31; s32; s33; s34; s35; s36; s37; s38; s39; s40; s41; s42; s43; s44; s45; s46; s47].
(* monomials *)
Definition m0 : mono := ([(Bg3, 2); (Bpi, (-2)); (Blt, 1)], []).
Definition m1 : mono := ([(Bt, (-1)); (Bv, 1); (Bg3, 2); (Bpi, (-2)); (Br2, (-1)); (Bi, 1)], []).
Definition m2 : mono := ([(Bt, (-2)); (Bg3, 3); (Bpi, (-2))], []).
Definition m3 : mono := ([(Bt, (-1)); (Bv, 1); (Bg3, 2); (Bpi, (-2)); (Br2, (-1))], []).
Definition m4 : mono := ([(BW, 2); (Bv, (-2)); (Bpi, (-2))], []).
Definition m5 : mono := ([(BW, 4); (BZ, (-2)); (Bv, (-2)); (Bpi, (-2))], []).
Definition m6 : mono := ([(BZ, 2); (Bv, (-2)); (Bpi, (-2))], []).
Definition m7 : mono := ([(Bt, 4); (Bv, (-2)); (Bpi, (-2))], [(s0, (-1)); (s1, (-1))]).
Definition m8 : mono := ([(BW, 2); (Bt, 2); (Bv, (-2)); (Bpi, (-2))], [(s0, (-1)); (s1, (-1))]).
Definition m9 : mono := ([(Bt, 6); (Bv, (-2)); (Bpi, (-2)); (Blt, 1)], [(s0, (-2)); (s1, (-2))]).
Definition m10 : mono := ([(BW, 2); (Bt, 4); (Bv, (-2)); (Bpi, (-2)); (Blt, 1)], [(s0, (-2)); (s1, (-2))]).
Definition m11 : mono := ([(BW, 4); (Bt, 2); (Bv, (-2)); (Bpi, (-2)); (Blt, 1)], [(s0, (-2)); (s1, (-2))]).
Definition m12 : mono := ([(BW, 2); (Bt, 2); (Bv, (-2)); (Bpi, (-2)); (Blt, 1)], [(s2, (-1))]).
Definition m13 : mono := ([(BW, 2); (Bt, 2); (Bv, (-2)); (Bpi, (-2)); (Blt, 1)], [(s3, (-1))]).
Definition m14 : mono := ([(BW, 2); (Bt, 2); (Bv, (-2)); (Bpi, (-2)); (Blt, 1)], [(s4, (-1))]).
Definition m15 : mono := ([(BW, 2); (Bv, (-2)); (Bpi, (-2)); (BlW, 1)], []).
Definition m16 : mono := ([(BW, 2); (Bt, 4); (Bv, (-2)); (Bpi, (-2)); (BlW, 1)], [(s0, (-2)); (s1, (-2))]).
Definition m17 : mono := ([(BW, 4); (Bt, 2); (Bv, (-2)); (Bpi, (-2)); (BlW, 1)], [(s0, (-2)); (s1, (-2))]).
Definition m18 : mono := ([(BW, 2); (Bt, 2); (Bv, (-2)); (Bpi, (-2)); (BlW, 1)], [(s4, (-1))]).
Definition m19 : mono := ([(BW, 2); (Bt, 2); (Bv, (-2)); (Bpi, (-2)); (BlW, 1)], [(s2, (-1))]).
Definition m20 : mono := ([(BW, 2); (Bv, (-2)); (Bpi, (-2)); (BlZ, 1)], []).
Definition m21 : mono := ([(BW, 4); (BZ, (-2)); (Bv, (-2)); (Bpi, (-2)); (BlZ, 1)], []).
Definition m22 : mono := ([(BZ, 2); (Bv, (-2)); (Bpi, (-2)); (BlZ, 1)], []).
Definition m23 : mono := ([(BW, 2); (Bv, (-2)); (Bpi, (-2)); (BEv, 1)], []).
Definition m24 : mono := ([(BW, 4); (BZ, (-2)); (Bv, (-2)); (Bpi, (-2)); (BEv, 1)], []).
Definition m25 : mono := ([(BZ, 2); (Bv, (-2)); (Bpi, (-2)); (BEv, 1)], []).
Definition m26 : mono := ([(BW, 2); (Bv, (-2)); (Bpi, (-2)); (BNc, (-1))], []).
Definition m27 : mono := ([(BW, 2); (Bv, (-2)); (Bpi, (-2)); (BNc, (-1)); (BEv, 1)], []).
Definition m28 : mono := ([(BW, 4); (BZ, (-2)); (Bv, (-2)); (Bpi, (-2)); (BNc, (-1))], []).
Definition m29 : mono := ([(BW, 4); (BZ, (-2)); (Bv, (-2)); (Bpi, (-2)); (BNc, (-1)); (BEv, 1)], []).
Definition m30 : mono := ([(BZ, 2); (Bv, (-2)); (Bpi, (-2)); (BNc, (-1))], []).
Definition m31 : mono := ([(BZ, 2); (Bv, (-2)); (Bpi, (-2)); (BNc, (-1)); (BEv, 1)], []).
Definition m32 : mono := ([(BH, 2); (Bv, (-4)); (Bpi, (-2))], []).
Definition m33 : mono := ([(BW, 2); (Bv, (-4)); (Bpi, (-2))], []).
Definition m34 : mono := ([(BW, 2); (Bv, (-4)); (Bpi, (-2)); (BEv, 1)], []).
Definition m35 : mono := ([(BW, 4); (BH, (-2)); (Bv, (-4)); (Bpi, (-2))], []).
Definition m36 : mono := ([(BW, 8); (BZ, (-6)); (Bv, (-4)); (Bpi, (-2))], []).
Definition m37 : mono := ([(BW, 8); (BZ, (-6)); (Bv, (-4)); (Bpi, (-2)); (BEv, 1)], []).
Definition m38 : mono := ([(BW, 4); (BZ, (-4)); (BH, 2); (Bv, (-4)); (Bpi, (-2))], []).
Definition m39 : mono := ([(BW, 6); (BZ, (-4)); (Bv, (-4)); (Bpi, (-2))], []).
Definition m40 : mono := ([(BW, 6); (BZ, (-4)); (Bv, (-4)); (Bpi, (-2)); (BEv, 1)], []).
Definition m41 : mono := ([(BW, 8); (BZ, (-4)); (BH, (-2)); (Bv, (-4)); (Bpi, (-2))], []).
Definition m42 : mono := ([(BW, 2); (BZ, (-2)); (BH, 2); (Bv, (-4)); (Bpi, (-2))], []).
Definition m43 : mono := ([(BW, 4); (BZ, (-2)); (Bv, (-4)); (Bpi, (-2))], []).
Definition m44 : mono := ([(BW, 4); (BZ, (-2)); (Bv, (-4)); (Bpi, (-2)); (BEv, 1)], []).
Definition m45 : mono := ([(BW, 6); (BZ, (-2)); (BH, (-2)); (Bv, (-4)); (Bpi, (-2))], []).
Definition m46 : mono := ([(BZ, 2); (Bv, (-4)); (Bpi, (-2))], []).
Definition m47 : mono := ([(BW, 2); (BZ, 2); (BH, (-2)); (Bv, (-4)); (Bpi, (-2))], []).
Definition m48 : mono := ([(BZ, 4); (BH, (-2)); (Bv, (-4)); (Bpi, (-2))], []).
Definition m49 : mono := ([(BH, (-2)); (Bt, 4); (Bv, (-4)); (Bpi, (-2)); (BNc, 1)], []).
Definition m50 : mono := ([(BW, 4); (Bt, (-2)); (Bv, (-4)); (Bpi, (-2)); (BNc, 1)], []).
Definition m51 : mono := ([(BW, 4); (BZ, (-4)); (BH, (-2)); (Bt, 4); (Bv, (-4)); (Bpi, (-2)); (BNc, 1)], []).
Definition m52 : mono := ([(BW, 8); (BZ, (-4)); (Bt, (-2)); (Bv, (-4)); (Bpi, (-2)); (BNc, 1)], []).
Definition m53 : mono := ([(BW, 2); (BZ, (-2)); (BH, (-2)); (Bt, 4); (Bv, (-4)); (Bpi, (-2)); (BNc, 1)], []).
Definition m54 : mono := ([(BW, 6); (BZ, (-2)); (Bt, (-2)); (Bv, (-4)); (Bpi, (-2)); (BNc, 1)], []).
Definition m55 : mono := ([(Bpi, (-2))], []).
Definition m56 : mono := ([(BW, 4); (BZ, (-4)); (Bpi, (-2))], []).
Definition m57 : mono := ([(BW, 2); (BZ, (-2)); (Bpi, (-2))], []).
Definition m58 : mono := ([(BW, 2); (BH, 2); (Bv, (-2)); (Bpi, (-2))], [(s5, (-1)); (s6, (-1))]).
Definition m59 : mono := ([(BW, 4); (Bv, (-2)); (Bpi, (-2))], [(s5, (-1)); (s6, (-1))]).
Definition m60 : mono := ([(BW, 6); (BH, (-2)); (Bv, (-2)); (Bpi, (-2))], [(s5, (-1)); (s6, (-1))]).
Definition m61 : mono := ([(BW, 6); (BZ, (-6)); (BH, 4); (Bv, (-2)); (Bpi, (-2))], [(s5, (-1)); (s6, (-1))]).
Definition m62 : mono := ([(BW, 10); (BZ, (-6)); (Bv, (-2)); (Bpi, (-2))], [(s5, (-1)); (s6, (-1))]).
Definition m63 : mono := ([(BW, 4); (BZ, (-4)); (BH, 4); (Bv, (-2)); (Bpi, (-2))], [(s5, (-1)); (s6, (-1))]).
Definition m64 : mono := ([(BW, 6); (BZ, (-4)); (BH, 2); (Bv, (-2)); (Bpi, (-2))], [(s5, (-1)); (s6, (-1))]).
Definition m65 : mono := ([(BW, 8); (BZ, (-4)); (Bv, (-2)); (Bpi, (-2))], [(s5, (-1)); (s6, (-1))]).
Definition m66 : mono := ([(BW, 10); (BZ, (-4)); (BH, (-2)); (Bv, (-2)); (Bpi, (-2))], [(s5, (-1)); (s6, (-1))]).
Definition m67 : mono := ([(BW, 2); (BZ, (-2)); (BH, 4); (Bv, (-2)); (Bpi, (-2))], [(s5, (-1)); (s6, (-1))]).
Definition m68 : mono := ([(BW, 4); (BZ, (-2)); (BH, 2); (Bv, (-2)); (Bpi, (-2))], [(s5, (-1)); (s6, (-1))]).
Definition m69 : mono := ([(BW, 6); (BZ, (-2)); (Bv, (-2)); (Bpi, (-2))], [(s5, (-1)); (s6, (-1))]).
Definition m70 : mono := ([(BW, 8); (BZ, (-2)); (BH, (-2)); (Bv, (-2)); (Bpi, (-2))], [(s5, (-1)); (s6, (-1))]).
Definition m71 : mono := ([(BW, 2); (BZ, 2); (Bv, (-2)); (Bpi, (-2))], [(s5, (-1)); (s6, (-1))]).
Definition m72 : mono := ([(BW, 4); (BZ, 2); (BH, (-2)); (Bv, (-2)); (Bpi, (-2))], [(s5, (-1)); (s6, (-1))]).
Definition m73 : mono := ([(BZ, 4); (Bv, (-2)); (Bpi, (-2))], [(s5, (-1)); (s6, (-1))]).
Definition m74 : mono := ([(BW, 2); (BZ, 4); (BH, (-2)); (Bv, (-2)); (Bpi, (-2))], [(s5, (-1)); (s6, (-1))]).
Definition m75 : mono := ([(BZ, 6); (BH, (-2)); (Bv, (-2)); (Bpi, (-2))], [(s5, (-1)); (s6, (-1))]).
Definition m76 : mono := ([(BW, 2); (BH, (-2)); (Bt, 4); (Bv, (-2)); (Bpi, (-2)); (BNc, 1)], [(s5, (-1)); (s6, (-1))]).
Definition m77 : mono := ([(BW, 6); (BZ, (-6)); (Bt, 4); (Bv, (-2)); (Bpi, (-2)); (BNc, 1)], [(s5, (-1)); (s6, (-1))]).
Definition m78 : mono := ([(BW, 4); (BZ, (-4)); (Bt, 4); (Bv, (-2)); (Bpi, (-2)); (BNc, 1)], [(s5, (-1)); (s6, (-1))]).
Definition m79 : mono := ([(BW, 6); (BZ, (-4)); (BH, (-2)); (Bt, 4); (Bv, (-2)); (Bpi, (-2)); (BNc, 1)], [(s5, (-1)); (s6, (-1))]).
Definition m80 : mono := ([(BW, 2); (BZ, (-2)); (Bt, 4); (Bv, (-2)); (Bpi, (-2)); (BNc, 1)], [(s5, (-1)); (s6, (-1))]).
Definition m81 : mono := ([(BW, 4); (BZ, (-2)); (BH, (-2)); (Bt, 4); (Bv, (-2)); (Bpi, (-2)); (BNc, 1)], [(s5, (-1)); (s6, (-1))]).
Definition m82 : mono := ([(BH, 2); (Bv, (-2)); (Bpi, (-2))], []).
Definition m83 : mono := ([(BW, 4); (BH, (-2)); (Bv, (-2)); (Bpi, (-2))], []).
Definition m84 : mono := ([(BW, 4); (BZ, (-4)); (BH, 2); (Bv, (-2)); (Bpi, (-2))], []).
Definition m85 : mono := ([(BW, 8); (BZ, (-4)); (BH, (-2)); (Bv, (-2)); (Bpi, (-2))], []).
Definition m86 : mono := ([(BW, 2); (BZ, (-2)); (BH, 2); (Bv, (-2)); (Bpi, (-2))], []).
Definition m87 : mono := ([(BW, 6); (BZ, (-2)); (BH, (-2)); (Bv, (-2)); (Bpi, (-2))], []).
Definition m88 : mono := ([(BW, 2); (BZ, 2); (BH, (-2)); (Bv, (-2)); (Bpi, (-2))], []).
Definition m89 : mono := ([(BZ, 4); (BH, (-2)); (Bv, (-2)); (Bpi, (-2))], []).
Definition m90 : mono := ([(BH, (-2)); (Bt, 4); (Bv, (-2)); (Bpi, (-2)); (BNc, 1)], []).
Definition m91 : mono := ([(BW, 4); (BZ, (-4)); (BH, (-2)); (Bt, 4); (Bv, (-2)); (Bpi, (-2)); (BNc, 1)], []).
Definition m92 : mono := ([(BW, 2); (BZ, (-2)); (BH, (-2)); (Bt, 4); (Bv, (-2)); (Bpi, (-2)); (BNc, 1)], []).
Definition m93 : mono := ([(BW, 8); (BZ, (-6)); (Bv, (-2)); (Bpi, (-2))], []).
Definition m94 : mono := ([(BW, 8); (BZ, (-6)); (Bv, (-2)); (Bpi, (-2)); (BEv, 1)], []).
Definition m95 : mono := ([(BW, 6); (BZ, (-4)); (Bv, (-2)); (Bpi, (-2))], []).
Definition m96 : mono := ([(BW, 6); (BZ, (-4)); (Bv, (-2)); (Bpi, (-2)); (BEv, 1)], []).
Definition m97 : mono := ([(BW, 8); (BZ, (-4)); (Bt, (-2)); (Bv, (-2)); (Bpi, (-2)); (BNc, 1)], []).
Definition m98 : mono := ([(BW, 6); (BZ, (-2)); (Bt, (-2)); (Bv, (-2)); (Bpi, (-2)); (BNc, 1)], []).
Definition m99 : mono := ([(BW, 1); (BH, 2); (Bv, (-1)); (Bg1, 1); (Bpi, (-2))], [(s5, (-1)); (s6, (-1))]).
Definition m100 : mono := ([(BW, 3); (Bv, (-1)); (Bg1, 1); (Bpi, (-2))], [(s5, (-1)); (s6, (-1))]).
Definition m101 : mono := ([(BW, 3); (Bv, (-1)); (Bg1, 1); (Bpi, (-2)); (BEv, 1)], [(s5, (-1)); (s6, (-1))]).
Definition m102 : mono := ([(BW, 5); (BH, (-2)); (Bv, (-1)); (Bg1, 1); (Bpi, (-2))], [(s5, (-1)); (s6, (-1))]).
Definition m103 : mono := ([(BW, 5); (BZ, (-6)); (BH, 4); (Bv, (-1)); (Bg1, 1); (Bpi, (-2))], [(s5, (-1)); (s6, (-1))]).
Definition m104 : mono := ([(BW, 7); (BZ, (-6)); (BH, 2); (Bv, (-1)); (Bg1, 1); (Bpi, (-2))], [(s5, (-1)); (s6, (-1))]).
Definition m105 : mono := ([(BW, 7); (BZ, (-6)); (BH, 2); (Bv, (-1)); (Bg1, 1); (Bpi, (-2)); (BEv, 1)], [(s5, (-1)); (s6, (-1))]).
Definition m106 : mono := ([(BW, 9); (BZ, (-6)); (Bv, (-1)); (Bg1, 1); (Bpi, (-2))], [(s5, (-1)); (s6, (-1))]).
Definition m107 : mono := ([(BW, 3); (BZ, (-4)); (BH, 4); (Bv, (-1)); (Bg1, 1); (Bpi, (-2))], [(s5, (-1)); (s6, (-1))]).
Definition m108 : mono := ([(BW, 5); (BZ, (-4)); (BH, 2); (Bv, (-1)); (Bg1, 1); (Bpi, (-2))], [(s5, (-1)); (s6, (-1))]).
Definition m109 : mono := ([(BW, 5); (BZ, (-4)); (BH, 2); (Bv, (-1)); (Bg1, 1); (Bpi, (-2)); (BEv, 1)], [(s5, (-1)); (s6, (-1))]).
Definition m110 : mono := ([(BW, 7); (BZ, (-4)); (Bv, (-1)); (Bg1, 1); (Bpi, (-2))], [(s5, (-1)); (s6, (-1))]).
Definition m111 : mono := ([(BW, 7); (BZ, (-4)); (Bv, (-1)); (Bg1, 1); (Bpi, (-2)); (BEv, 1)], [(s5, (-1)); (s6, (-1))]).
Definition m112 : mono := ([(BW, 9); (BZ, (-4)); (BH, (-2)); (Bv, (-1)); (Bg1, 1); (Bpi, (-2))], [(s5, (-1)); (s6, (-1))]).
Definition m113 : mono := ([(BW, 1); (BZ, (-2)); (BH, 4); (Bv, (-1)); (Bg1, 1); (Bpi, (-2))], [(s5, (-1)); (s6, (-1))]).
Definition m114 : mono := ([(BW, 3); (BZ, (-2)); (BH, 2); (Bv, (-1)); (Bg1, 1); (Bpi, (-2))], [(s5, (-1)); (s6, (-1))]).
Definition m115 : mono := ([(BW, 3); (BZ, (-2)); (BH, 2); (Bv, (-1)); (Bg1, 1); (Bpi, (-2)); (BEv, 1)], [(s5, (-1)); (s6, (-1))]).
Definition m116 : mono := ([(BW, 5); (BZ, (-2)); (Bv, (-1)); (Bg1, 1); (Bpi, (-2))], [(s5, (-1)); (s6, (-1))]).
Definition m117 : mono := ([(BW, 5); (BZ, (-2)); (Bv, (-1)); (Bg1, 1); (Bpi, (-2)); (BEv, 1)], [(s5, (-1)); (s6, (-1))]).
Definition m118 : mono := ([(BW, 7); (BZ, (-2)); (BH, (-2)); (Bv, (-1)); (Bg1, 1); (Bpi, (-2))], [(s5, (-1)); (s6, (-1))]).
Definition m119 : mono := ([(BW, 1); (BZ, 2); (Bv, (-1)); (Bg1, 1); (Bpi, (-2))], [(s5, (-1)); (s6, (-1))]).
Definition m120 : mono := ([(BW, 3); (BZ, 2); (BH, (-2)); (Bv, (-1)); (Bg1, 1); (Bpi, (-2))], [(s5, (-1)); (s6, (-1))]).
Definition m121 : mono := ([(BW, 1); (BZ, 4); (BH, (-2)); (Bv, (-1)); (Bg1, 1); (Bpi, (-2))], [(s5, (-1)); (s6, (-1))]).
Definition m122 : mono := ([(BW, 5); (Bt, (-2)); (Bv, (-1)); (Bg1, 1); (Bpi, (-2)); (BNc, 1)], [(s5, (-1)); (s6, (-1))]).
Definition m123 : mono := ([(BW, 5); (BZ, (-6)); (Bt, 4); (Bv, (-1)); (Bg1, 1); (Bpi, (-2)); (BNc, 1)], [(s5, (-1)); (s6, (-1))]).
Definition m124 : mono := ([(BW, 3); (BZ, (-4)); (Bt, 4); (Bv, (-1)); (Bg1, 1); (Bpi, (-2)); (BNc, 1)], [(s5, (-1)); (s6, (-1))]).
Definition m125 : mono := ([(BW, 5); (BZ, (-4)); (BH, (-2)); (Bt, 4); (Bv, (-1)); (Bg1, 1); (Bpi, (-2)); (BNc, 1)], [(s5, (-1)); (s6, (-1))]).
Definition m126 : mono := ([(BW, 7); (BZ, (-4)); (BH, 2); (Bt, (-2)); (Bv, (-1)); (Bg1, 1); (Bpi, (-2)); (BNc, 1)], [(s5, (-1)); (s6, (-1))]).
Definition m127 : mono := ([(BW, 3); (BZ, (-2)); (BH, (-2)); (Bt, 4); (Bv, (-1)); (Bg1, 1); (Bpi, (-2)); (BNc, 1)], [(s5, (-1)); (s6, (-1))]).
Definition m128 : mono := ([(BW, 5); (BZ, (-2)); (BH, 2); (Bt, (-2)); (Bv, (-1)); (Bg1, 1); (Bpi, (-2)); (BNc, 1)], [(s5, (-1)); (s6, (-1))]).
Definition m129 : mono := ([(BW, 7); (BZ, (-2)); (Bt, (-2)); (Bv, (-1)); (Bg1, 1); (Bpi, (-2)); (BNc, 1)], [(s5, (-1)); (s6, (-1))]).
Definition m130 : mono := ([(BW, 3); (Bv, (-3)); (Bpi, (-2))], []).
Definition m131 : mono := ([(BW, 7); (BZ, (-4)); (Bv, (-3)); (Bpi, (-2))], []).
Definition m132 : mono := ([(BW, 5); (BZ, (-2)); (Bv, (-3)); (Bpi, (-2))], []).
Definition m133 : mono := ([(Bt, 2); (Bv, (-4)); (Bpi, (-2))], []).
Definition m134 : mono := ([(BH, (-2)); (Bt, 4); (Bv, (-4)); (Bpi, (-2))], []).
Definition m135 : mono := ([(BH, 2); (Bv, (-4)); (Bpi, (-2)); (BNc, (-1))], []).
Definition m136 : mono := ([(BW, 2); (Bv, (-4)); (Bpi, (-2)); (BNc, (-1))], []).
Definition m137 : mono := ([(BW, 2); (Bv, (-4)); (Bpi, (-2)); (BNc, (-1)); (BEv, 1)], []).
Definition m138 : mono := ([(BW, 4); (BH, (-2)); (Bv, (-4)); (Bpi, (-2)); (BNc, (-1))], []).
Definition m139 : mono := ([(BW, 4); (BZ, (-2)); (Bv, (-4)); (Bpi, (-2)); (BNc, (-1))], []).
Definition m140 : mono := ([(BW, 4); (BZ, (-2)); (Bv, (-4)); (Bpi, (-2)); (BNc, (-1)); (BEv, 1)], []).
Definition m141 : mono := ([(BZ, 2); (Bv, (-4)); (Bpi, (-2)); (BNc, (-1))], []).
Definition m142 : mono := ([(BZ, 4); (BH, (-2)); (Bv, (-4)); (Bpi, (-2)); (BNc, (-1))], []).
Definition m143 : mono := ([(Bv, (-2)); (Bg3, 2); (Bpi, (-2))], []).
Definition m144 : mono := ([(Bv, (-2)); (Bg3, 2); (Bpi, (-2)); (BEv, 1)], []).
Definition m145 : mono := ([(Bv, (-2)); (Bg3, 2); (Bpi, (-2)); (BNc, (-2))], []).
Definition m146 : mono := ([(Bv, (-2)); (Bg3, 2); (Bpi, (-2)); (BNc, (-2)); (BEv, 1)], []).
Definition m147 : mono := ([(Bpi, (-2)); (BNc, (-1))], []).
Definition m148 : mono := ([(BW, 2); (BZ, 2); (BH, (-2)); (Bv, (-2)); (Bpi, (-2)); (BNc, (-1))], []).
Definition m149 : mono := ([(BZ, 4); (BH, (-2)); (Bv, (-2)); (Bpi, (-2)); (BNc, (-1))], []).
Definition m150 : mono := ([(BH, (-2)); (Bt, 4); (Bv, (-2)); (Bpi, (-2))], []).
Definition m151 : mono := ([(BH, 2); (Bv, (-2)); (Bpi, (-2)); (BNc, (-1))], []).
Definition m152 : mono := ([(BW, 4); (BH, (-2)); (Bv, (-2)); (Bpi, (-2)); (BNc, (-1))], []).
Definition m153 : mono := ([(BW, 1); (Bv, (-1)); (Bg1, 1); (Bpi, (-2)); (BNc, (-1))], []).
Definition m154 : mono := ([(BW, 3); (BZ, (-2)); (Bv, (-1)); (Bg1, 1); (Bpi, (-2)); (BNc, (-1))], []).
Definition m155 : mono := ([(BW, 3); (BZ, (-2)); (Bv, (-1)); (Bg1, 1); (Bpi, (-2)); (BNc, (-1)); (BEv, 1)], []).
Definition m156 : mono := ([(BW, 1); (BZ, 2); (BH, (-2)); (Bv, (-1)); (Bg1, 1); (Bpi, (-2)); (BNc, (-1))], []).
Definition m157 : mono := ([(Bg3, 2); (Bpi, (-2))], []).
Definition m158 : mono := ([(Bg3, 2); (Bpi, (-2)); (BEv, 1)], []).
Definition m159 : mono := ([(Bg3, 2); (Bpi, (-2)); (BNc, (-2))], []).
Definition m160 : mono := ([(Bg3, 2); (Bpi, (-2)); (BNc, (-2)); (BEv, 1)], []).
Definition m161 : mono := ([(Bt, 2); (Bv, (-2)); (Bpi, (-2))], []).
Definition m162 : mono := ([(Bt, 4); (Bv, (-2)); (Bpi, (-2)); (BNc, (-1))], [(s0, (-1)); (s1, (-1))]).
Definition m163 : mono := ([(BW, 2); (Bt, 2); (Bv, (-2)); (Bpi, (-2)); (BNc, (-1))], [(s0, (-1)); (s1, (-1))]).
Definition m164 : mono := ([(BW, 2); (BZ, (-2)); (Bt, 2); (Bv, (-2)); (Bpi, (-2))], []).
Definition m165 : mono := ([(Bt, 2); (Bv, (-2)); (Bpi, (-2)); (BNc, (-1))], []).
Definition m166 : mono := ([(Bt, 8); (Bv, (-4)); (Bpi, (-2))], [(s0, (-3)); (s1, (-3))]).
Definition m167 : mono := ([(BW, 2); (Bt, 6); (Bv, (-4)); (Bpi, (-2))], [(s0, (-3)); (s1, (-3))]).
Definition m168 : mono := ([(BW, 4); (Bt, 4); (Bv, (-4)); (Bpi, (-2))], [(s0, (-3)); (s1, (-3))]).
Definition m169 : mono := ([(BW, 6); (Bt, 2); (Bv, (-4)); (Bpi, (-2))], [(s0, (-3)); (s1, (-3))]).
Definition m170 : mono := ([(BW, 8); (Bv, (-4)); (Bpi, (-2))], [(s0, (-3)); (s1, (-3))]).
Definition m171 : mono := ([(BW, 2); (BZ, (-2)); (Bt, 8); (Bv, (-4)); (Bpi, (-2))], [(s0, (-3)); (s1, (-3))]).
Definition m172 : mono := ([(BW, 4); (BZ, (-2)); (Bt, 6); (Bv, (-4)); (Bpi, (-2))], [(s0, (-3)); (s1, (-3))]).
Definition m173 : mono := ([(BW, 6); (BZ, (-2)); (Bt, 4); (Bv, (-4)); (Bpi, (-2))], [(s0, (-3)); (s1, (-3))]).
Definition m174 : mono := ([(BW, 8); (BZ, (-2)); (Bt, 2); (Bv, (-4)); (Bpi, (-2))], [(s0, (-3)); (s1, (-3))]).
Definition m175 : mono := ([(BW, 10); (BZ, (-2)); (Bv, (-4)); (Bpi, (-2))], [(s0, (-3)); (s1, (-3))]).
Definition m176 : mono := ([(Bt, 8); (Bv, (-2)); (Bpi, (-2))], [(s0, (-3)); (s1, (-3))]).
Definition m177 : mono := ([(BW, 2); (Bt, 6); (Bv, (-2)); (Bpi, (-2))], [(s0, (-3)); (s1, (-3))]).
Definition m178 : mono := ([(BW, 4); (Bt, 4); (Bv, (-2)); (Bpi, (-2))], [(s0, (-3)); (s1, (-3))]).
Definition m179 : mono := ([(BW, 6); (Bt, 2); (Bv, (-2)); (Bpi, (-2))], [(s0, (-3)); (s1, (-3))]).
Definition m180 : mono := ([(BW, 2); (BZ, (-2)); (Bt, 8); (Bv, (-2)); (Bpi, (-2))], [(s0, (-3)); (s1, (-3))]).
Definition m181 : mono := ([(BW, 4); (BZ, (-2)); (Bt, 6); (Bv, (-2)); (Bpi, (-2))], [(s0, (-3)); (s1, (-3))]).
Definition m182 : mono := ([(BW, 6); (BZ, (-2)); (Bt, 4); (Bv, (-2)); (Bpi, (-2))], [(s0, (-3)); (s1, (-3))]).
Definition m183 : mono := ([(BW, 8); (BZ, (-2)); (Bt, 2); (Bv, (-2)); (Bpi, (-2))], [(s0, (-3)); (s1, (-3))]).
Definition m184 : mono := ([(BW, 10); (BZ, (-2)); (Bv, (-2)); (Bpi, (-2))], [(s0, (-3)); (s1, (-3))]).
Definition m185 : mono := ([(BW, 1); (BZ, (-2)); (Bt, 8); (Bv, (-1)); (Bg1, 1); (Bpi, (-2))], [(s1, (-3)); (s7, (-3))]).
Definition m186 : mono := ([(BW, 3); (BZ, (-2)); (Bt, 6); (Bv, (-1)); (Bg1, 1); (Bpi, (-2))], [(s1, (-3)); (s7, (-3))]).
Definition m187 : mono := ([(BW, 5); (BZ, (-2)); (Bt, 4); (Bv, (-1)); (Bg1, 1); (Bpi, (-2))], [(s1, (-3)); (s7, (-3))]).
Definition m188 : mono := ([(BW, 7); (BZ, (-2)); (Bt, 2); (Bv, (-1)); (Bg1, 1); (Bpi, (-2))], [(s1, (-3)); (s7, (-3))]).
Definition m189 : mono := ([(BW, 9); (BZ, (-2)); (Bv, (-1)); (Bg1, 1); (Bpi, (-2))], [(s1, (-3)); (s7, (-3))]).
Definition m190 : mono := ([(BW, 3); (Bt, 4); (Bv, (-3)); (Bpi, (-2))], [(s0, (-2)); (s1, (-2))]).
Definition m191 : mono := ([(BW, 5); (Bt, 2); (Bv, (-3)); (Bpi, (-2))], [(s0, (-2)); (s1, (-2))]).
Definition m192 : mono := ([(BW, 5); (BZ, (-2)); (Bt, 4); (Bv, (-3)); (Bpi, (-2))], [(s0, (-2)); (s1, (-2))]).
Definition m193 : mono := ([(BW, 7); (BZ, (-2)); (Bt, 2); (Bv, (-3)); (Bpi, (-2))], [(s0, (-2)); (s1, (-2))]).
Definition m194 : mono := ([(Bt, 4); (Bv, (-2)); (Bpi, (-2))], [(s8, (-1))]).
Definition m195 : mono := ([(BW, 2); (Bt, 2); (Bv, (-2)); (Bpi, (-2))], [(s8, (-1))]).
Definition m196 : mono := ([(Bt, 4); (Bv, (-2)); (Bpi, (-2))], [(s4, (-1))]).
Definition m197 : mono := ([(BW, 2); (Bt, 2); (Bv, (-2)); (Bpi, (-2))], [(s4, (-1))]).
Definition m198 : mono := ([(Bt, 4); (Bv, (-2)); (Bpi, (-2))], [(s9, (-1))]).
Definition m199 : mono := ([(BW, 2); (Bt, 2); (Bv, (-2)); (Bpi, (-2))], [(s9, (-1))]).
Definition m200 : mono := ([(BW, 4); (Bv, (-2)); (Bpi, (-2))], [(s9, (-1))]).
Definition m201 : mono := ([(BZ, 2); (Bt, 2); (Bv, (-2)); (Bpi, (-2))], [(s9, (-1))]).
Definition m202 : mono := ([(BW, 2); (BZ, 2); (Bv, (-2)); (Bpi, (-2))], [(s9, (-1))]).
Definition m203 : mono := ([(Bt, 1); (Bv, (-1)); (Bg1, 1); (Bpi, (-2)); (Br2, (-1)); (BNc, (-1))], []).
Definition m204 : mono := ([(BW, 2); (Bt, (-1)); (Bv, (-1)); (Bg1, 1); (Bpi, (-2)); (Br2, (-1)); (BNc, (-1))], []).
Definition m205 : mono := ([(BZ, 2); (Bt, (-1)); (Bv, (-1)); (Bg1, 1); (Bpi, (-2)); (Br2, (-1)); (BNc, (-1))], []).
Definition m206 : mono := ([(Bt, 1); (Bv, (-1)); (Bg3, 1); (Bpi, (-2)); (Br2, (-1)); (BNc, (-1)); (Bcf, 1)], []).
Definition m207 : mono := ([(BH, (-2)); (Bt, 3); (Bv, (-1)); (Bpi, (-2)); (Br2, (-1))], []).
Definition m208 : mono := ([(Bt, 1); (Bv, (-1)); (Bpi, (-2)); (Br2, (-1)); (BNc, (-1))], []).
Definition m209 : mono := ([(BW, 4); (BH, (-2)); (Bt, (-1)); (Bv, (-1)); (Bpi, (-2)); (Br2, (-1)); (BNc, (-1))], []).
Definition m210 : mono := ([(BZ, 4); (BH, (-2)); (Bt, (-1)); (Bv, (-1)); (Bpi, (-2)); (Br2, (-1)); (BNc, (-1))], []).
Definition m211 : mono := ([(BW, 1); (Bt, 3); (Bv, (-2)); (Bpi, (-2)); (Br2, (-1)); (BNc, (-1))], [(s0, (-1)); (s1, (-1))]).
Definition m212 : mono := ([(BW, 3); (Bt, 1); (Bv, (-2)); (Bpi, (-2)); (Br2, (-1)); (BNc, (-1))], [(s0, (-1)); (s1, (-1))]).
Definition m213 : mono := ([(BW, 5); (Bt, (-1)); (Bv, (-2)); (Bpi, (-2)); (Br2, (-1)); (BNc, (-1))], [(s0, (-1)); (s1, (-1))]).
Definition m214 : mono := ([(BW, 1); (BZ, 2); (Bt, 1); (Bv, (-2)); (Bpi, (-2)); (Br2, (-1)); (BNc, (-1))], [(s0, (-1)); (s1, (-1))]).
Definition m215 : mono := ([(BW, 3); (BZ, 2); (Bt, (-1)); (Bv, (-2)); (Bpi, (-2)); (Br2, (-1)); (BNc, (-1))], [(s0, (-1)); (s1, (-1))]).
Definition m216 : mono := ([(Bt, 2); (Bv, (-2)); (Bpi, (-2)); (BNc, (-1)); (Bcf, 1)], []).
Definition m217 : mono := ([(BW, 2); (BZ, (-2)); (Bt, 4); (Bv, (-2)); (Bpi, (-2))], [(s0, (-1)); (s1, (-1))]).
Definition m218 : mono := ([(BW, 4); (BZ, (-2)); (Bt, 2); (Bv, (-2)); (Bpi, (-2))], [(s0, (-1)); (s1, (-1))]).
Definition m219 : mono := ([(BW, 8); (Bv, (-2)); (Bpi, (-2))], [(s0, (-3)); (s1, (-3))]).
Definition m220 : mono := ([(BW, 1); (Bt, 7); (Bv, (-2)); (Bpi, (-2)); (Br2, (-1))], [(s0, (-3)); (s1, (-3))]).
Definition m221 : mono := ([(BW, 3); (Bt, 5); (Bv, (-2)); (Bpi, (-2)); (Br2, (-1))], [(s0, (-3)); (s1, (-3))]).
Definition m222 : mono := ([(BW, 5); (Bt, 3); (Bv, (-2)); (Bpi, (-2)); (Br2, (-1))], [(s0, (-3)); (s1, (-3))]).
Definition m223 : mono := ([(BW, 7); (Bt, 1); (Bv, (-2)); (Bpi, (-2)); (Br2, (-1))], [(s0, (-3)); (s1, (-3))]).
Definition m224 : mono := ([(BW, 3); (BZ, (-2)); (Bt, 7); (Bv, (-2)); (Bpi, (-2)); (Br2, (-1))], [(s0, (-3)); (s1, (-3))]).
Definition m225 : mono := ([(BW, 5); (BZ, (-2)); (Bt, 5); (Bv, (-2)); (Bpi, (-2)); (Br2, (-1))], [(s0, (-3)); (s1, (-3))]).
Definition m226 : mono := ([(BW, 7); (BZ, (-2)); (Bt, 3); (Bv, (-2)); (Bpi, (-2)); (Br2, (-1))], [(s0, (-3)); (s1, (-3))]).
Definition m227 : mono := ([(BW, 9); (BZ, (-2)); (Bt, 1); (Bv, (-2)); (Bpi, (-2)); (Br2, (-1))], [(s0, (-3)); (s1, (-3))]).
Definition m228 : mono := ([(BH, (-2)); (Bt, 3); (Bv, (-1)); (Bpi, (-2)); (Br2, (-1)); (BNc, 1)], []).
Definition m229 : mono := ([(BW, 2); (BZ, (-2)); (BH, (-2)); (Bt, 3); (Bv, (-1)); (Bpi, (-2)); (Br2, (-1)); (BNc, 1)], []).
Definition m230 : mono := ([(BW, 2); (BZ, (-2)); (Bt, 5); (Bv, (-1)); (Bg1, 1); (Bpi, (-2)); (Br2, (-1))], [(s0, (-2)); (s1, (-2))]).
Definition m231 : mono := ([(BW, 4); (BZ, (-2)); (Bt, 3); (Bv, (-1)); (Bg1, 1); (Bpi, (-2)); (Br2, (-1))], [(s0, (-2)); (s1, (-2))]).
Definition m232 : mono := ([(BW, 6); (BZ, (-2)); (Bt, 1); (Bv, (-1)); (Bg1, 1); (Bpi, (-2)); (Br2, (-1))], [(s0, (-2)); (s1, (-2))]).
Definition m233 : mono := ([(BW, 1); (Bt, 5); (Bv, (-2)); (Bpi, (-2)); (Br2, (-1))], [(s0, (-2)); (s1, (-2))]).
Definition m234 : mono := ([(BW, 3); (Bt, 3); (Bv, (-2)); (Bpi, (-2)); (Br2, (-1))], [(s0, (-2)); (s1, (-2))]).
Definition m235 : mono := ([(BW, 5); (Bt, 1); (Bv, (-2)); (Bpi, (-2)); (Br2, (-1))], [(s0, (-2)); (s1, (-2))]).
Definition m236 : mono := ([(BW, 3); (BZ, (-2)); (Bt, 5); (Bv, (-2)); (Bpi, (-2)); (Br2, (-1))], [(s0, (-2)); (s1, (-2))]).
Definition m237 : mono := ([(BW, 5); (BZ, (-2)); (Bt, 3); (Bv, (-2)); (Bpi, (-2)); (Br2, (-1))], [(s0, (-2)); (s1, (-2))]).
Definition m238 : mono := ([(BW, 7); (BZ, (-2)); (Bt, 1); (Bv, (-2)); (Bpi, (-2)); (Br2, (-1))], [(s0, (-2)); (s1, (-2))]).
Definition m239 : mono := ([(BH, 4); (Bv, (-4)); (Bpi, (-2)); (BlH, 1)], [(s5, (-1)); (s6, (-1))]).
Definition m240 : mono := ([(BW, 2); (BH, 2); (Bv, (-4)); (Bpi, (-2)); (BlH, 1)], [(s5, (-1)); (s6, (-1))]).
Definition m241 : mono := ([(BW, 4); (BZ, (-4)); (BH, 4); (Bv, (-4)); (Bpi, (-2)); (BlH, 1)], [(s5, (-1)); (s6, (-1))]).
Definition m242 : mono := ([(BW, 2); (BZ, (-2)); (BH, 4); (Bv, (-4)); (Bpi, (-2)); (BlH, 1)], [(s5, (-1)); (s6, (-1))]).
Definition m243 : mono := ([(BW, 4); (BZ, (-2)); (BH, 2); (Bv, (-4)); (Bpi, (-2)); (BlH, 1)], [(s5, (-1)); (s6, (-1))]).
Definition m244 : mono := ([(BZ, 2); (BH, 2); (Bv, (-4)); (Bpi, (-2)); (BlH, 1)], [(s5, (-1)); (s6, (-1))]).
Definition m245 : mono := ([(Bpi, (-2)); (BlH, 1)], []).
Definition m246 : mono := ([(BW, 4); (BZ, (-4)); (Bpi, (-2)); (BlH, 1)], []).
Definition m247 : mono := ([(BW, 2); (BZ, (-2)); (Bpi, (-2)); (BlH, 1)], []).
Definition m248 : mono := ([(BW, 2); (BH, 4); (Bv, (-2)); (Bpi, (-2)); (BlH, 1)], [(s5, (-2)); (s6, (-2))]).
Definition m249 : mono := ([(BW, 4); (BH, 2); (Bv, (-2)); (Bpi, (-2)); (BlH, 1)], [(s5, (-2)); (s6, (-2))]).
Definition m250 : mono := ([(BW, 6); (BZ, (-6)); (BH, 6); (Bv, (-2)); (Bpi, (-2)); (BlH, 1)], [(s5, (-2)); (s6, (-2))]).
Definition m251 : mono := ([(BW, 4); (BZ, (-4)); (BH, 6); (Bv, (-2)); (Bpi, (-2)); (BlH, 1)], [(s5, (-2)); (s6, (-2))]).
Definition m252 : mono := ([(BW, 6); (BZ, (-4)); (BH, 4); (Bv, (-2)); (Bpi, (-2)); (BlH, 1)], [(s5, (-2)); (s6, (-2))]).
Definition m253 : mono := ([(BW, 2); (BZ, (-2)); (BH, 6); (Bv, (-2)); (Bpi, (-2)); (BlH, 1)], [(s5, (-2)); (s6, (-2))]).
Definition m254 : mono := ([(BW, 4); (BZ, (-2)); (BH, 4); (Bv, (-2)); (Bpi, (-2)); (BlH, 1)], [(s5, (-2)); (s6, (-2))]).
Definition m255 : mono := ([(BW, 6); (BZ, (-2)); (BH, 2); (Bv, (-2)); (Bpi, (-2)); (BlH, 1)], [(s5, (-2)); (s6, (-2))]).
Definition m256 : mono := ([(BW, 2); (BZ, 2); (BH, 2); (Bv, (-2)); (Bpi, (-2)); (BlH, 1)], [(s5, (-2)); (s6, (-2))]).
Definition m257 : mono := ([(BH, 4); (Bv, (-2)); (Bpi, (-2)); (BlH, 1)], [(s5, (-1)); (s6, (-1))]).
Definition m258 : mono := ([(BW, 2); (BH, 2); (Bv, (-2)); (Bpi, (-2)); (BlH, 1)], [(s5, (-1)); (s6, (-1))]).
Definition m259 : mono := ([(BW, 4); (BZ, (-4)); (BH, 4); (Bv, (-2)); (Bpi, (-2)); (BlH, 1)], [(s5, (-1)); (s6, (-1))]).
Definition m260 : mono := ([(BW, 2); (BZ, (-2)); (BH, 4); (Bv, (-2)); (Bpi, (-2)); (BlH, 1)], [(s5, (-1)); (s6, (-1))]).
Definition m261 : mono := ([(BW, 4); (BZ, (-2)); (BH, 2); (Bv, (-2)); (Bpi, (-2)); (BlH, 1)], [(s5, (-1)); (s6, (-1))]).
Definition m262 : mono := ([(BZ, 2); (BH, 2); (Bv, (-2)); (Bpi, (-2)); (BlH, 1)], [(s5, (-1)); (s6, (-1))]).
Definition m263 : mono := ([(BW, 1); (BH, 4); (Bv, (-1)); (Bg1, 1); (Bpi, (-2)); (BlH, 1)], [(s5, (-2)); (s6, (-2))]).
Definition m264 : mono := ([(BW, 3); (BH, 2); (Bv, (-1)); (Bg1, 1); (Bpi, (-2)); (BlH, 1)], [(s5, (-2)); (s6, (-2))]).
Definition m265 : mono := ([(BW, 5); (BZ, (-6)); (BH, 6); (Bv, (-1)); (Bg1, 1); (Bpi, (-2)); (BlH, 1)], [(s5, (-2)); (s6, (-2))]).
Definition m266 : mono := ([(BW, 3); (BZ, (-4)); (BH, 6); (Bv, (-1)); (Bg1, 1); (Bpi, (-2)); (BlH, 1)], [(s5, (-2)); (s6, (-2))]).
Definition m267 : mono := ([(BW, 5); (BZ, (-4)); (BH, 4); (Bv, (-1)); (Bg1, 1); (Bpi, (-2)); (BlH, 1)], [(s5, (-2)); (s6, (-2))]).
Definition m268 : mono := ([(BW, 1); (BZ, (-2)); (BH, 6); (Bv, (-1)); (Bg1, 1); (Bpi, (-2)); (BlH, 1)], [(s5, (-2)); (s6, (-2))]).
Definition m269 : mono := ([(BW, 3); (BZ, (-2)); (BH, 4); (Bv, (-1)); (Bg1, 1); (Bpi, (-2)); (BlH, 1)], [(s5, (-2)); (s6, (-2))]).
Definition m270 : mono := ([(BW, 5); (BZ, (-2)); (BH, 2); (Bv, (-1)); (Bg1, 1); (Bpi, (-2)); (BlH, 1)], [(s5, (-2)); (s6, (-2))]).
Definition m271 : mono := ([(BH, 4); (Bv, (-4)); (Bpi, (-2)); (BlH, 1)], [(s10, (-1))]).
Definition m272 : mono := ([(BW, 2); (BH, 2); (Bv, (-4)); (Bpi, (-2)); (BlH, 1)], [(s10, (-1))]).
Definition m273 : mono := ([(Bpi, (-2)); (BNc, (-1)); (BlH, 1)], []).
Definition m274 : mono := ([(BH, 4); (Bv, (-2)); (Bpi, (-2)); (BlH, 1)], [(s11, (-1))]).
Definition m275 : mono := ([(BW, 2); (BH, 2); (Bv, (-2)); (Bpi, (-2)); (BlH, 1)], [(s11, (-1))]).
Definition m276 : mono := ([(BH, 4); (Bv, (-2)); (Bpi, (-2)); (BlH, 1)], [(s12, (-1))]).
Definition m277 : mono := ([(BW, 2); (BH, 2); (Bv, (-2)); (Bpi, (-2)); (BlH, 1)], [(s12, (-1))]).
Definition m278 : mono := ([(BH, 4); (Bt, 1); (Bv, (-1)); (Bpi, (-2)); (Br2, (-1)); (BNc, (-1)); (BlH, 1)], [(s13, (-1)); (s14, (-1)); (s15, (-1)); (s16, (-1))]).
Definition m279 : mono := ([(BW, 2); (BH, 2); (Bt, 1); (Bv, (-1)); (Bpi, (-2)); (Br2, (-1)); (BNc, (-1)); (BlH, 1)], [(s13, (-1)); (s14, (-1)); (s15, (-1)); (s16, (-1))]).
Definition m280 : mono := ([(Bt, 2); (Bv, (-4)); (Bpi, (-2)); (BNc, 1); (Blt, 1)], []).
Definition m281 : mono := ([(BH, (-2)); (Bt, 4); (Bv, (-4)); (Bpi, (-2)); (BNc, 1); (Blt, 1)], []).
Definition m282 : mono := ([(BW, 2); (Bv, (-4)); (Bpi, (-2)); (BNc, 1); (Blt, 1)], []).
Definition m283 : mono := ([(BW, 8); (BZ, (-6)); (Bv, (-4)); (Bpi, (-2)); (BNc, 1); (Blt, 1)], []).
Definition m284 : mono := ([(BW, 4); (BZ, (-4)); (Bt, 2); (Bv, (-4)); (Bpi, (-2)); (BNc, 1); (Blt, 1)], []).
Definition m285 : mono := ([(BW, 4); (BZ, (-4)); (BH, (-2)); (Bt, 4); (Bv, (-4)); (Bpi, (-2)); (BNc, 1); (Blt, 1)], []).
Definition m286 : mono := ([(BW, 6); (BZ, (-4)); (Bv, (-4)); (Bpi, (-2)); (BNc, 1); (Blt, 1)], []).
Definition m287 : mono := ([(BW, 2); (BZ, (-2)); (Bt, 2); (Bv, (-4)); (Bpi, (-2)); (BNc, 1); (Blt, 1)], []).
Definition m288 : mono := ([(BW, 2); (BZ, (-2)); (BH, (-2)); (Bt, 4); (Bv, (-4)); (Bpi, (-2)); (BNc, 1); (Blt, 1)], []).
Definition m289 : mono := ([(BW, 4); (BZ, (-2)); (Bv, (-4)); (Bpi, (-2)); (BNc, 1); (Blt, 1)], []).
Definition m290 : mono := ([(BW, 6); (BZ, (-6)); (BH, (-2)); (Bt, 4); (Bv, (-2)); (Bpi, (-2)); (BNc, 1); (Blt, 1)], []).
Definition m291 : mono := ([(BW, 4); (BZ, (-4)); (BH, (-2)); (Bt, 4); (Bv, (-2)); (Bpi, (-2)); (BNc, 1); (Blt, 1)], []).
Definition m292 : mono := ([(BW, 2); (BZ, (-2)); (BH, (-2)); (Bt, 4); (Bv, (-2)); (Bpi, (-2)); (BNc, 1); (Blt, 1)], []).
Definition m293 : mono := ([(BH, (-2)); (Bt, 4); (Bv, (-2)); (Bpi, (-2)); (BNc, 1); (Blt, 1)], []).
Definition m294 : mono := ([(Bt, 2); (Bv, (-2)); (Bpi, (-2)); (BNc, 1); (Blt, 1)], []).
Definition m295 : mono := ([(BW, 2); (Bv, (-2)); (Bpi, (-2)); (BNc, 1); (Blt, 1)], []).
Definition m296 : mono := ([(BW, 8); (BZ, (-6)); (Bv, (-2)); (Bpi, (-2)); (BNc, 1); (Blt, 1)], []).
Definition m297 : mono := ([(BW, 6); (BZ, (-4)); (Bv, (-2)); (Bpi, (-2)); (BNc, 1); (Blt, 1)], []).
Definition m298 : mono := ([(BW, 2); (BZ, (-2)); (Bt, 2); (Bv, (-2)); (Bpi, (-2)); (BNc, 1); (Blt, 1)], []).
Definition m299 : mono := ([(BW, 5); (BZ, (-6)); (BH, (-2)); (Bt, 4); (Bv, (-1)); (Bg1, 1); (Bpi, (-2)); (BNc, 1); (Blt, 1)], []).
Definition m300 : mono := ([(BW, 7); (BZ, (-6)); (Bv, (-1)); (Bg1, 1); (Bpi, (-2)); (BNc, 1); (Blt, 1)], []).
Definition m301 : mono := ([(BW, 3); (BZ, (-4)); (Bt, 2); (Bv, (-1)); (Bg1, 1); (Bpi, (-2)); (BNc, 1); (Blt, 1)], []).
Definition m302 : mono := ([(BW, 3); (BZ, (-4)); (BH, (-2)); (Bt, 4); (Bv, (-1)); (Bg1, 1); (Bpi, (-2)); (BNc, 1); (Blt, 1)], []).
Definition m303 : mono := ([(BW, 5); (BZ, (-4)); (Bv, (-1)); (Bg1, 1); (Bpi, (-2)); (BNc, 1); (Blt, 1)], []).
Definition m304 : mono := ([(BW, 1); (BZ, (-2)); (Bt, 2); (Bv, (-1)); (Bg1, 1); (Bpi, (-2)); (BNc, 1); (Blt, 1)], []).
Definition m305 : mono := ([(BW, 3); (BZ, (-2)); (Bv, (-1)); (Bg1, 1); (Bpi, (-2)); (BNc, 1); (Blt, 1)], []).
Definition m306 : mono := ([(BW, 4); (BZ, (-2)); (Bv, (-2)); (Bpi, (-2)); (BNc, 1); (Blt, 1)], []).
Definition m307 : mono := ([(Bt, 2); (Bv, (-4)); (Bpi, (-2)); (Blt, 1)], []).
Definition m308 : mono := ([(BH, (-2)); (Bt, 4); (Bv, (-4)); (Bpi, (-2)); (Blt, 1)], []).
Definition m309 : mono := ([(BH, (-2)); (Bt, 4); (Bv, (-2)); (Bpi, (-2)); (Blt, 1)], []).
Definition m310 : mono := ([(Bt, 2); (Bv, (-2)); (Bpi, (-2)); (Blt, 1)], []).
Definition m311 : mono := ([(BW, 2); (Bt, 2); (Bv, (-2)); (Bpi, (-2)); (Blt, 1)], [(s17, (-1))]).
Definition m312 : mono := ([(Bt, 6); (Bv, (-2)); (Bpi, (-2)); (BNc, (-1)); (Blt, 1)], [(s0, (-2)); (s1, (-2))]).
Definition m313 : mono := ([(BW, 2); (Bt, 4); (Bv, (-2)); (Bpi, (-2)); (BNc, (-1)); (Blt, 1)], [(s0, (-2)); (s1, (-2))]).
Definition m314 : mono := ([(BW, 4); (Bt, 2); (Bv, (-2)); (Bpi, (-2)); (BNc, (-1)); (Blt, 1)], [(s0, (-2)); (s1, (-2))]).
Definition m315 : mono := ([(BW, 2); (Bv, (-2)); (Bpi, (-2)); (Blt, 1)], []).
Definition m316 : mono := ([(BW, 2); (BZ, (-2)); (Bt, 2); (Bv, (-2)); (Bpi, (-2)); (Blt, 1)], []).
Definition m317 : mono := ([(BW, 4); (BZ, (-2)); (Bv, (-2)); (Bpi, (-2)); (Blt, 1)], []).
Definition m318 : mono := ([(Bt, 2); (Bv, (-2)); (Bpi, (-2)); (BNc, (-1)); (Blt, 1)], []).
Definition m319 : mono := ([(BW, 2); (Bt, 8); (Bv, (-4)); (Bpi, (-2)); (Blt, 1)], [(s0, (-4)); (s1, (-4))]).
Definition m320 : mono := ([(BW, 4); (Bt, 6); (Bv, (-4)); (Bpi, (-2)); (Blt, 1)], [(s0, (-4)); (s1, (-4))]).
Definition m321 : mono := ([(BW, 6); (Bt, 4); (Bv, (-4)); (Bpi, (-2)); (Blt, 1)], [(s0, (-4)); (s1, (-4))]).
Definition m322 : mono := ([(BW, 8); (Bt, 2); (Bv, (-4)); (Bpi, (-2)); (Blt, 1)], [(s0, (-4)); (s1, (-4))]).
Definition m323 : mono := ([(BW, 10); (Bv, (-4)); (Bpi, (-2)); (Blt, 1)], [(s0, (-4)); (s1, (-4))]).
Definition m324 : mono := ([(BW, 4); (BZ, (-2)); (Bt, 8); (Bv, (-4)); (Bpi, (-2)); (Blt, 1)], [(s0, (-4)); (s1, (-4))]).
Definition m325 : mono := ([(BW, 6); (BZ, (-2)); (Bt, 6); (Bv, (-4)); (Bpi, (-2)); (Blt, 1)], [(s0, (-4)); (s1, (-4))]).
Definition m326 : mono := ([(BW, 8); (BZ, (-2)); (Bt, 4); (Bv, (-4)); (Bpi, (-2)); (Blt, 1)], [(s0, (-4)); (s1, (-4))]).
Definition m327 : mono := ([(BW, 10); (BZ, (-2)); (Bt, 2); (Bv, (-4)); (Bpi, (-2)); (Blt, 1)], [(s0, (-4)); (s1, (-4))]).
Definition m328 : mono := ([(BW, 12); (BZ, (-2)); (Bv, (-4)); (Bpi, (-2)); (Blt, 1)], [(s0, (-4)); (s1, (-4))]).
Definition m329 : mono := ([(Bt, 10); (Bv, (-2)); (Bpi, (-2)); (Blt, 1)], [(s0, (-4)); (s1, (-4))]).
Definition m330 : mono := ([(BW, 2); (Bt, 8); (Bv, (-2)); (Bpi, (-2)); (Blt, 1)], [(s0, (-4)); (s1, (-4))]).
Definition m331 : mono := ([(BW, 4); (Bt, 6); (Bv, (-2)); (Bpi, (-2)); (Blt, 1)], [(s0, (-4)); (s1, (-4))]).
Definition m332 : mono := ([(BW, 6); (Bt, 4); (Bv, (-2)); (Bpi, (-2)); (Blt, 1)], [(s0, (-4)); (s1, (-4))]).
Definition m333 : mono := ([(BW, 8); (Bt, 2); (Bv, (-2)); (Bpi, (-2)); (Blt, 1)], [(s0, (-4)); (s1, (-4))]).
Definition m334 : mono := ([(BW, 2); (BZ, (-2)); (Bt, 10); (Bv, (-2)); (Bpi, (-2)); (Blt, 1)], [(s0, (-4)); (s1, (-4))]).
Definition m335 : mono := ([(BW, 4); (BZ, (-2)); (Bt, 8); (Bv, (-2)); (Bpi, (-2)); (Blt, 1)], [(s0, (-4)); (s1, (-4))]).
Definition m336 : mono := ([(BW, 6); (BZ, (-2)); (Bt, 6); (Bv, (-2)); (Bpi, (-2)); (Blt, 1)], [(s0, (-4)); (s1, (-4))]).
Definition m337 : mono := ([(BW, 8); (BZ, (-2)); (Bt, 4); (Bv, (-2)); (Bpi, (-2)); (Blt, 1)], [(s0, (-4)); (s1, (-4))]).
Definition m338 : mono := ([(BW, 10); (BZ, (-2)); (Bt, 2); (Bv, (-2)); (Bpi, (-2)); (Blt, 1)], [(s0, (-4)); (s1, (-4))]).
Definition m339 : mono := ([(BW, 12); (BZ, (-2)); (Bv, (-2)); (Bpi, (-2)); (Blt, 1)], [(s0, (-4)); (s1, (-4))]).
Definition m340 : mono := ([(BW, 3); (BZ, (-2)); (Bt, 8); (Bv, (-1)); (Bg1, 1); (Bpi, (-2)); (Blt, 1)], [(s0, (-4)); (s1, (-4))]).
Definition m341 : mono := ([(BW, 5); (BZ, (-2)); (Bt, 6); (Bv, (-1)); (Bg1, 1); (Bpi, (-2)); (Blt, 1)], [(s0, (-4)); (s1, (-4))]).
Definition m342 : mono := ([(BW, 7); (BZ, (-2)); (Bt, 4); (Bv, (-1)); (Bg1, 1); (Bpi, (-2)); (Blt, 1)], [(s0, (-4)); (s1, (-4))]).
Definition m343 : mono := ([(BW, 9); (BZ, (-2)); (Bt, 2); (Bv, (-1)); (Bg1, 1); (Bpi, (-2)); (Blt, 1)], [(s0, (-4)); (s1, (-4))]).
Definition m344 : mono := ([(BW, 11); (BZ, (-2)); (Bv, (-1)); (Bg1, 1); (Bpi, (-2)); (Blt, 1)], [(s0, (-4)); (s1, (-4))]).
Definition m345 : mono := ([(BW, 3); (Bt, 6); (Bv, (-3)); (Bpi, (-2)); (Blt, 1)], [(s0, (-3)); (s1, (-3))]).
Definition m346 : mono := ([(BW, 5); (BZ, (-2)); (Bt, 6); (Bv, (-3)); (Bpi, (-2)); (Blt, 1)], [(s0, (-3)); (s1, (-3))]).
Definition m347 : mono := ([(Bt, 6); (Bv, (-2)); (Bpi, (-2)); (BNc, (-1)); (Blt, 1)], [(s0, (-1)); (s1, (-1)); (s18, (-1)); (s19, (-1))]).
Definition m348 : mono := ([(BW, 2); (Bt, 4); (Bv, (-2)); (Bpi, (-2)); (BNc, (-1)); (Blt, 1)], [(s0, (-1)); (s1, (-1)); (s18, (-1)); (s19, (-1))]).
Definition m349 : mono := ([(BW, 4); (Bt, 2); (Bv, (-2)); (Bpi, (-2)); (BNc, (-1)); (Blt, 1)], [(s0, (-1)); (s1, (-1)); (s18, (-1)); (s19, (-1))]).
Definition m350 : mono := ([(BZ, 2); (Bt, 4); (Bv, (-2)); (Bpi, (-2)); (BNc, (-1)); (Blt, 1)], [(s0, (-1)); (s1, (-1)); (s18, (-1)); (s19, (-1))]).
Definition m351 : mono := ([(BW, 2); (BZ, 2); (Bt, 2); (Bv, (-2)); (Bpi, (-2)); (BNc, (-1)); (Blt, 1)], [(s0, (-1)); (s1, (-1)); (s18, (-1)); (s19, (-1))]).
Definition m352 : mono := ([(Bt, 8); (Bv, (-2)); (Bpi, (-2)); (BNc, (-1)); (Blt, 1)], [(s0, (-2)); (s1, (-2)); (s18, (-1)); (s19, (-1))]).
Definition m353 : mono := ([(BW, 2); (Bt, 6); (Bv, (-2)); (Bpi, (-2)); (BNc, (-1)); (Blt, 1)], [(s0, (-2)); (s1, (-2)); (s18, (-1)); (s19, (-1))]).
Definition m354 : mono := ([(BW, 4); (Bt, 4); (Bv, (-2)); (Bpi, (-2)); (BNc, (-1)); (Blt, 1)], [(s0, (-2)); (s1, (-2)); (s18, (-1)); (s19, (-1))]).
Definition m355 : mono := ([(BW, 6); (Bt, 2); (Bv, (-2)); (Bpi, (-2)); (BNc, (-1)); (Blt, 1)], [(s0, (-2)); (s1, (-2)); (s18, (-1)); (s19, (-1))]).
Definition m356 : mono := ([(BZ, 2); (Bt, 6); (Bv, (-2)); (Bpi, (-2)); (BNc, (-1)); (Blt, 1)], [(s0, (-2)); (s1, (-2)); (s18, (-1)); (s19, (-1))]).
Definition m357 : mono := ([(BW, 2); (BZ, 2); (Bt, 4); (Bv, (-2)); (Bpi, (-2)); (BNc, (-1)); (Blt, 1)], [(s0, (-2)); (s1, (-2)); (s18, (-1)); (s19, (-1))]).
Definition m358 : mono := ([(BW, 4); (BZ, 2); (Bt, 2); (Bv, (-2)); (Bpi, (-2)); (BNc, (-1)); (Blt, 1)], [(s0, (-2)); (s1, (-2)); (s18, (-1)); (s19, (-1))]).
Definition m359 : mono := ([(Bt, 5); (Bv, (-1)); (Bg1, 1); (Bpi, (-2)); (Br2, (-1)); (BNc, (-1)); (Blt, 1)], [(s0, (-1)); (s1, (-1)); (s18, (-1)); (s19, (-1))]).
Definition m360 : mono := ([(BW, 2); (Bt, 3); (Bv, (-1)); (Bg1, 1); (Bpi, (-2)); (Br2, (-1)); (BNc, (-1)); (Blt, 1)], [(s0, (-1)); (s1, (-1)); (s18, (-1)); (s19, (-1))]).
Definition m361 : mono := ([(BW, 4); (Bt, 1); (Bv, (-1)); (Bg1, 1); (Bpi, (-2)); (Br2, (-1)); (BNc, (-1)); (Blt, 1)], [(s0, (-1)); (s1, (-1)); (s18, (-1)); (s19, (-1))]).
Definition m362 : mono := ([(BW, 2); (Bt, 1); (Bv, (-1)); (Bg3, 1); (Bpi, (-2)); (Br2, (-1)); (Blt, 1)], [(s0, (-1)); (s1, (-1))]).
Definition m363 : mono := ([(BW, 2); (Bt, 1); (Bv, (-1)); (Bg3, 1); (Bpi, (-2)); (Br2, (-1)); (BNc, (-2)); (Blt, 1)], [(s0, (-1)); (s1, (-1))]).
Definition m364 : mono := ([(Bt, 3); (Bv, (-1)); (Bg3, 1); (Bpi, (-2)); (Br2, (-1)); (BNc, (-1)); (Bcf, 1); (Blt, 1)], [(s0, (-1)); (s1, (-1))]).
Definition m365 : mono := ([(BW, 2); (Bt, 1); (Bv, (-1)); (Bg3, 1); (Bpi, (-2)); (Br2, (-1)); (BNc, (-1)); (Bcf, 1); (Blt, 1)], [(s0, (-1)); (s1, (-1))]).
Definition m366 : mono := ([(Bt, 5); (Bv, (-1)); (Bpi, (-2)); (Br2, (-1)); (Blt, 1)], [(s0, (-1)); (s1, (-1)); (s13, (-1)); (s14, (-1))]).
Definition m367 : mono := ([(BH, (-2)); (Bt, 7); (Bv, (-1)); (Bpi, (-2)); (Br2, (-1)); (Blt, 1)], [(s0, (-1)); (s1, (-1)); (s13, (-1)); (s14, (-1))]).
Definition m368 : mono := ([(BW, 2); (Bt, 3); (Bv, (-1)); (Bpi, (-2)); (Br2, (-1)); (Blt, 1)], [(s0, (-1)); (s1, (-1)); (s13, (-1)); (s14, (-1))]).
Definition m369 : mono := ([(BW, 2); (BH, (-2)); (Bt, 5); (Bv, (-1)); (Bpi, (-2)); (Br2, (-1)); (Blt, 1)], [(s0, (-1)); (s1, (-1)); (s13, (-1)); (s14, (-1))]).
Definition m370 : mono := ([(Bt, 5); (Bv, (-1)); (Bpi, (-2)); (Br2, (-1)); (BNc, (-1)); (Blt, 1)], [(s0, (-1)); (s1, (-1)); (s13, (-1)); (s14, (-1))]).
Definition m371 : mono := ([(BW, 2); (Bt, 3); (Bv, (-1)); (Bpi, (-2)); (Br2, (-1)); (BNc, (-1)); (Blt, 1)], [(s0, (-1)); (s1, (-1)); (s13, (-1)); (s14, (-1))]).
Definition m372 : mono := ([(BW, 3); (Bt, 5); (Bv, (-2)); (Bpi, (-2)); (Br2, (-1)); (BNc, (-1)); (Blt, 1)], [(s0, (-2)); (s1, (-2)); (s18, (-1)); (s19, (-1))]).
Definition m373 : mono := ([(BW, 5); (Bt, 3); (Bv, (-2)); (Bpi, (-2)); (Br2, (-1)); (BNc, (-1)); (Blt, 1)], [(s0, (-2)); (s1, (-2)); (s18, (-1)); (s19, (-1))]).
Definition m374 : mono := ([(BW, 7); (Bt, 1); (Bv, (-2)); (Bpi, (-2)); (Br2, (-1)); (BNc, (-1)); (Blt, 1)], [(s0, (-2)); (s1, (-2)); (s18, (-1)); (s19, (-1))]).
Definition m375 : mono := ([(BW, 1); (BZ, 2); (Bt, 5); (Bv, (-2)); (Bpi, (-2)); (Br2, (-1)); (BNc, (-1)); (Blt, 1)], [(s0, (-2)); (s1, (-2)); (s18, (-1)); (s19, (-1))]).
Definition m376 : mono := ([(BW, 3); (BZ, 2); (Bt, 3); (Bv, (-2)); (Bpi, (-2)); (Br2, (-1)); (BNc, (-1)); (Blt, 1)], [(s0, (-2)); (s1, (-2)); (s18, (-1)); (s19, (-1))]).
Definition m377 : mono := ([(BW, 5); (BZ, 2); (Bt, 1); (Bv, (-2)); (Bpi, (-2)); (Br2, (-1)); (BNc, (-1)); (Blt, 1)], [(s0, (-2)); (s1, (-2)); (s18, (-1)); (s19, (-1))]).
Definition m378 : mono := ([(Bt, 2); (Bv, (-2)); (Bpi, (-2)); (BNc, (-1)); (Bcf, 1); (Blt, 1)], []).
Definition m379 : mono := ([(BW, 2); (BZ, (-2)); (Bt, 6); (Bv, (-2)); (Bpi, (-2)); (Blt, 1)], [(s0, (-2)); (s1, (-2))]).
Definition m380 : mono := ([(BW, 4); (BZ, (-2)); (Bt, 4); (Bv, (-2)); (Bpi, (-2)); (Blt, 1)], [(s0, (-2)); (s1, (-2))]).
Definition m381 : mono := ([(BW, 6); (BZ, (-2)); (Bt, 2); (Bv, (-2)); (Bpi, (-2)); (Blt, 1)], [(s0, (-2)); (s1, (-2))]).
Definition m382 : mono := ([(BW, 10); (Bv, (-2)); (Bpi, (-2)); (Blt, 1)], [(s0, (-4)); (s1, (-4))]).
Definition m383 : mono := ([(BW, 4); (BZ, (-2)); (Bt, 1); (Bv, (-1)); (Bg1, 1); (Bpi, (-2)); (Br2, (-1)); (Blt, 1)], [(s4, (-1))]).
Definition m384 : mono := ([(BW, 3); (Bt, 7); (Bv, (-2)); (Bpi, (-2)); (Br2, (-1)); (Blt, 1)], [(s0, (-4)); (s1, (-4))]).
Definition m385 : mono := ([(BW, 5); (Bt, 5); (Bv, (-2)); (Bpi, (-2)); (Br2, (-1)); (Blt, 1)], [(s0, (-4)); (s1, (-4))]).
Definition m386 : mono := ([(BW, 7); (Bt, 3); (Bv, (-2)); (Bpi, (-2)); (Br2, (-1)); (Blt, 1)], [(s0, (-4)); (s1, (-4))]).
Definition m387 : mono := ([(BW, 9); (Bt, 1); (Bv, (-2)); (Bpi, (-2)); (Br2, (-1)); (Blt, 1)], [(s0, (-4)); (s1, (-4))]).
Definition m388 : mono := ([(BW, 5); (BZ, (-2)); (Bt, 7); (Bv, (-2)); (Bpi, (-2)); (Br2, (-1)); (Blt, 1)], [(s0, (-4)); (s1, (-4))]).
Definition m389 : mono := ([(BW, 7); (BZ, (-2)); (Bt, 5); (Bv, (-2)); (Bpi, (-2)); (Br2, (-1)); (Blt, 1)], [(s0, (-4)); (s1, (-4))]).
Definition m390 : mono := ([(BW, 11); (BZ, (-2)); (Bt, 1); (Bv, (-2)); (Bpi, (-2)); (Br2, (-1)); (Blt, 1)], [(s0, (-4)); (s1, (-4))]).
Definition m391 : mono := ([(BW, 4); (BZ, (-4)); (Bt, 2); (Bv, (-2)); (Bpi, (-2)); (BNc, 1); (Blt, 1)], []).
Definition m392 : mono := ([(BW, 4); (BZ, (-4)); (Bt, 1); (Bv, (-1)); (Bg1, 1); (Bpi, (-2)); (Br2, (-1)); (BNc, 1); (Blt, 1)], []).
Definition m393 : mono := ([(BW, 2); (BZ, (-2)); (Bt, 1); (Bv, (-1)); (Bg1, 1); (Bpi, (-2)); (Br2, (-1)); (BNc, 1); (Blt, 1)], []).
Definition m394 : mono := ([(BH, (-2)); (Bt, 3); (Bv, (-1)); (Bpi, (-2)); (Br2, (-1)); (BNc, 1); (Blt, 1)], []).
Definition m395 : mono := ([(BW, 2); (BZ, (-2)); (BH, (-2)); (Bt, 3); (Bv, (-1)); (Bpi, (-2)); (Br2, (-1)); (BNc, 1); (Blt, 1)], []).
Definition m396 : mono := ([(BW, 1); (Bt, 1); (Bv, (-2)); (Bpi, (-2)); (Br2, (-1)); (BNc, 1); (Blt, 1)], []).
Definition m397 : mono := ([(BW, 3); (BZ, (-2)); (Bt, 1); (Bv, (-2)); (Bpi, (-2)); (Br2, (-1)); (BNc, 1); (Blt, 1)], []).
Definition m398 : mono := ([(BH, (-2)); (Bt, 3); (Bv, (-1)); (Bpi, (-2)); (Br2, (-1)); (Blt, 1)], []).
Definition m399 : mono := ([(BW, 4); (BZ, (-2)); (Bt, 5); (Bv, (-1)); (Bg1, 1); (Bpi, (-2)); (Br2, (-1)); (Blt, 1)], [(s0, (-3)); (s1, (-3))]).
Definition m400 : mono := ([(BW, 6); (BZ, (-2)); (Bt, 3); (Bv, (-1)); (Bg1, 1); (Bpi, (-2)); (Br2, (-1)); (Blt, 1)], [(s0, (-3)); (s1, (-3))]).
Definition m401 : mono := ([(BW, 3); (Bt, 5); (Bv, (-2)); (Bpi, (-2)); (Br2, (-1)); (Blt, 1)], [(s0, (-3)); (s1, (-3))]).
Definition m402 : mono := ([(BW, 5); (Bt, 3); (Bv, (-2)); (Bpi, (-2)); (Br2, (-1)); (Blt, 1)], [(s0, (-3)); (s1, (-3))]).
Definition m403 : mono := ([(BW, 5); (BZ, (-2)); (Bt, 5); (Bv, (-2)); (Bpi, (-2)); (Br2, (-1)); (Blt, 1)], [(s0, (-3)); (s1, (-3))]).
Definition m404 : mono := ([(BW, 7); (BZ, (-2)); (Bt, 3); (Bv, (-2)); (Bpi, (-2)); (Br2, (-1)); (Blt, 1)], [(s0, (-3)); (s1, (-3))]).
Definition m405 : mono := ([(BW, 2); (Bv, (-2)); (Bpi, (-2)); (BNc, (-1)); (BlW, 1)], []).
Definition m406 : mono := ([(BW, 2); (Bv, (-4)); (Bpi, (-2)); (BlW, 1)], []).
Definition m407 : mono := ([(BW, 4); (BH, (-2)); (Bv, (-4)); (Bpi, (-2)); (BlW, 1)], []).
Definition m408 : mono := ([(BW, 8); (BZ, (-6)); (Bv, (-4)); (Bpi, (-2)); (BlW, 1)], []).
Definition m409 : mono := ([(BW, 6); (BZ, (-4)); (Bv, (-4)); (Bpi, (-2)); (BlW, 1)], []).
Definition m410 : mono := ([(BW, 8); (BZ, (-4)); (BH, (-2)); (Bv, (-4)); (Bpi, (-2)); (BlW, 1)], []).
Definition m411 : mono := ([(BW, 4); (BZ, (-2)); (Bv, (-4)); (Bpi, (-2)); (BlW, 1)], []).
Definition m412 : mono := ([(BW, 6); (BZ, (-2)); (BH, (-2)); (Bv, (-4)); (Bpi, (-2)); (BlW, 1)], []).
Definition m413 : mono := ([(BW, 10); (BZ, (-6)); (BH, (-2)); (Bv, (-2)); (Bpi, (-2)); (BlW, 1)], []).
Definition m414 : mono := ([(BW, 8); (BZ, (-4)); (BH, (-2)); (Bv, (-2)); (Bpi, (-2)); (BlW, 1)], []).
Definition m415 : mono := ([(BW, 6); (BZ, (-2)); (BH, (-2)); (Bv, (-2)); (Bpi, (-2)); (BlW, 1)], []).
Definition m416 : mono := ([(BW, 4); (BH, (-2)); (Bv, (-2)); (Bpi, (-2)); (BlW, 1)], []).
Definition m417 : mono := ([(BW, 8); (BZ, (-6)); (Bv, (-2)); (Bpi, (-2)); (BlW, 1)], []).
Definition m418 : mono := ([(BW, 6); (BZ, (-4)); (Bv, (-2)); (Bpi, (-2)); (BlW, 1)], []).
Definition m419 : mono := ([(BW, 4); (BZ, (-2)); (Bv, (-2)); (Bpi, (-2)); (BlW, 1)], []).
Definition m420 : mono := ([(BW, 7); (BZ, (-6)); (Bv, (-1)); (Bg1, 1); (Bpi, (-2)); (BlW, 1)], []).
Definition m421 : mono := ([(BW, 9); (BZ, (-6)); (BH, (-2)); (Bv, (-1)); (Bg1, 1); (Bpi, (-2)); (BlW, 1)], []).
Definition m422 : mono := ([(BW, 5); (BZ, (-4)); (Bv, (-1)); (Bg1, 1); (Bpi, (-2)); (BlW, 1)], []).
Definition m423 : mono := ([(BW, 7); (BZ, (-4)); (BH, (-2)); (Bv, (-1)); (Bg1, 1); (Bpi, (-2)); (BlW, 1)], []).
Definition m424 : mono := ([(BW, 3); (BZ, (-2)); (Bv, (-1)); (Bg1, 1); (Bpi, (-2)); (BlW, 1)], []).
Definition m425 : mono := ([(BW, 3); (Bv, (-3)); (Bpi, (-2)); (BlW, 1)], []).
Definition m426 : mono := ([(BW, 9); (BZ, (-6)); (Bv, (-3)); (Bpi, (-2)); (BlW, 1)], []).
Definition m427 : mono := ([(BW, 7); (BZ, (-4)); (Bv, (-3)); (Bpi, (-2)); (BlW, 1)], []).
Definition m428 : mono := ([(BW, 5); (BZ, (-2)); (Bv, (-3)); (Bpi, (-2)); (BlW, 1)], []).
Definition m429 : mono := ([(BW, 4); (BH, 2); (Bv, (-4)); (Bpi, (-2)); (BNc, (-1)); (BlW, 1)], [(s15, (-1)); (s16, (-1)); (s20, (-1)); (s21, (-1))]).
Definition m430 : mono := ([(BW, 6); (Bv, (-4)); (Bpi, (-2)); (BNc, (-1)); (BlW, 1)], [(s15, (-1)); (s16, (-1)); (s20, (-1)); (s21, (-1))]).
Definition m431 : mono := ([(BW, 8); (BH, (-2)); (Bv, (-4)); (Bpi, (-2)); (BNc, (-1)); (BlW, 1)], [(s15, (-1)); (s16, (-1)); (s20, (-1)); (s21, (-1))]).
Definition m432 : mono := ([(BW, 2); (BZ, 2); (BH, 2); (Bv, (-4)); (Bpi, (-2)); (BNc, (-1)); (BlW, 1)], [(s15, (-1)); (s16, (-1)); (s20, (-1)); (s21, (-1))]).
Definition m433 : mono := ([(BW, 4); (BZ, 2); (Bv, (-4)); (Bpi, (-2)); (BNc, (-1)); (BlW, 1)], [(s15, (-1)); (s16, (-1)); (s20, (-1)); (s21, (-1))]).
Definition m434 : mono := ([(BW, 6); (BZ, 2); (BH, (-2)); (Bv, (-4)); (Bpi, (-2)); (BNc, (-1)); (BlW, 1)], [(s15, (-1)); (s16, (-1)); (s20, (-1)); (s21, (-1))]).
Definition m435 : mono := ([(Bv, (-2)); (Bg3, 2); (Bpi, (-2)); (BlW, 1)], []).
Definition m436 : mono := ([(Bv, (-2)); (Bg3, 2); (Bpi, (-2)); (BNc, (-2)); (BlW, 1)], []).
Definition m437 : mono := ([(BW, 4); (BH, 2); (Bv, (-2)); (Bpi, (-2)); (BlW, 1)], [(s22, (-1))]).
Definition m438 : mono := ([(BW, 6); (Bv, (-2)); (Bpi, (-2)); (BlW, 1)], [(s22, (-1))]).
Definition m439 : mono := ([(BW, 4); (BH, 2); (Bv, (-2)); (Bpi, (-2)); (BNc, (-1)); (BlW, 1)], [(s15, (-1)); (s16, (-1)); (s20, (-1)); (s21, (-1))]).
Definition m440 : mono := ([(BW, 6); (Bv, (-2)); (Bpi, (-2)); (BNc, (-1)); (BlW, 1)], [(s15, (-1)); (s16, (-1)); (s20, (-1)); (s21, (-1))]).
Definition m441 : mono := ([(BW, 8); (BH, (-2)); (Bv, (-2)); (Bpi, (-2)); (BNc, (-1)); (BlW, 1)], [(s15, (-1)); (s16, (-1)); (s20, (-1)); (s21, (-1))]).
Definition m442 : mono := ([(BW, 2); (BZ, 2); (BH, 2); (Bv, (-2)); (Bpi, (-2)); (BNc, (-1)); (BlW, 1)], [(s15, (-1)); (s16, (-1)); (s20, (-1)); (s21, (-1))]).
Definition m443 : mono := ([(BW, 4); (BZ, 2); (Bv, (-2)); (Bpi, (-2)); (BNc, (-1)); (BlW, 1)], [(s15, (-1)); (s16, (-1)); (s20, (-1)); (s21, (-1))]).
Definition m444 : mono := ([(BW, 6); (BZ, 2); (BH, (-2)); (Bv, (-2)); (Bpi, (-2)); (BNc, (-1)); (BlW, 1)], [(s15, (-1)); (s16, (-1)); (s20, (-1)); (s21, (-1))]).
Definition m445 : mono := ([(BW, 4); (BH, (-2)); (Bv, (-2)); (Bpi, (-2)); (BNc, (-1)); (BlW, 1)], []).
Definition m446 : mono := ([(Bg3, 2); (Bpi, (-2)); (BlW, 1)], []).
Definition m447 : mono := ([(Bg3, 2); (Bpi, (-2)); (BNc, (-2)); (BlW, 1)], []).
Definition m448 : mono := ([(BW, 2); (Bt, 2); (Bv, (-2)); (Bpi, (-2)); (BlW, 1)], [(s17, (-1))]).
Definition m449 : mono := ([(BW, 2); (Bt, 4); (Bv, (-2)); (Bpi, (-2)); (BNc, (-1)); (BlW, 1)], [(s0, (-2)); (s1, (-2))]).
Definition m450 : mono := ([(BW, 4); (Bt, 2); (Bv, (-2)); (Bpi, (-2)); (BNc, (-1)); (BlW, 1)], [(s0, (-2)); (s1, (-2))]).
Definition m451 : mono := ([(BW, 2); (Bt, 8); (Bv, (-4)); (Bpi, (-2)); (BlW, 1)], [(s0, (-4)); (s1, (-4))]).
Definition m452 : mono := ([(BW, 4); (Bt, 6); (Bv, (-4)); (Bpi, (-2)); (BlW, 1)], [(s0, (-4)); (s1, (-4))]).
Definition m453 : mono := ([(BW, 6); (Bt, 4); (Bv, (-4)); (Bpi, (-2)); (BlW, 1)], [(s0, (-4)); (s1, (-4))]).
Definition m454 : mono := ([(BW, 8); (Bt, 2); (Bv, (-4)); (Bpi, (-2)); (BlW, 1)], [(s0, (-4)); (s1, (-4))]).
Definition m455 : mono := ([(BW, 4); (BZ, (-2)); (Bt, 8); (Bv, (-4)); (Bpi, (-2)); (BlW, 1)], [(s0, (-4)); (s1, (-4))]).
Definition m456 : mono := ([(BW, 6); (BZ, (-2)); (Bt, 6); (Bv, (-4)); (Bpi, (-2)); (BlW, 1)], [(s0, (-4)); (s1, (-4))]).
Definition m457 : mono := ([(BW, 8); (BZ, (-2)); (Bt, 4); (Bv, (-4)); (Bpi, (-2)); (BlW, 1)], [(s0, (-4)); (s1, (-4))]).
Definition m458 : mono := ([(BW, 10); (BZ, (-2)); (Bt, 2); (Bv, (-4)); (Bpi, (-2)); (BlW, 1)], [(s0, (-4)); (s1, (-4))]).
Definition m459 : mono := ([(BW, 4); (Bt, 6); (Bv, (-2)); (Bpi, (-2)); (BlW, 1)], [(s0, (-4)); (s1, (-4))]).
Definition m460 : mono := ([(BW, 6); (Bt, 4); (Bv, (-2)); (Bpi, (-2)); (BlW, 1)], [(s0, (-4)); (s1, (-4))]).
Definition m461 : mono := ([(BW, 8); (Bt, 2); (Bv, (-2)); (Bpi, (-2)); (BlW, 1)], [(s0, (-4)); (s1, (-4))]).
Definition m462 : mono := ([(BW, 4); (BZ, (-2)); (Bt, 8); (Bv, (-2)); (Bpi, (-2)); (BlW, 1)], [(s0, (-4)); (s1, (-4))]).
Definition m463 : mono := ([(BW, 6); (BZ, (-2)); (Bt, 6); (Bv, (-2)); (Bpi, (-2)); (BlW, 1)], [(s0, (-4)); (s1, (-4))]).
Definition m464 : mono := ([(BW, 8); (BZ, (-2)); (Bt, 4); (Bv, (-2)); (Bpi, (-2)); (BlW, 1)], [(s0, (-4)); (s1, (-4))]).
Definition m465 : mono := ([(BW, 10); (BZ, (-2)); (Bt, 2); (Bv, (-2)); (Bpi, (-2)); (BlW, 1)], [(s0, (-4)); (s1, (-4))]).
Definition m466 : mono := ([(BW, 3); (BZ, (-2)); (Bt, 8); (Bv, (-1)); (Bg1, 1); (Bpi, (-2)); (BlW, 1)], [(s0, (-4)); (s1, (-4))]).
Definition m467 : mono := ([(BW, 5); (BZ, (-2)); (Bt, 6); (Bv, (-1)); (Bg1, 1); (Bpi, (-2)); (BlW, 1)], [(s0, (-4)); (s1, (-4))]).
Definition m468 : mono := ([(BW, 7); (BZ, (-2)); (Bt, 4); (Bv, (-1)); (Bg1, 1); (Bpi, (-2)); (BlW, 1)], [(s0, (-4)); (s1, (-4))]).
Definition m469 : mono := ([(BW, 9); (BZ, (-2)); (Bt, 2); (Bv, (-1)); (Bg1, 1); (Bpi, (-2)); (BlW, 1)], [(s0, (-4)); (s1, (-4))]).
Definition m470 : mono := ([(BW, 3); (Bt, 6); (Bv, (-3)); (Bpi, (-2)); (BlW, 1)], [(s0, (-3)); (s1, (-3))]).
Definition m471 : mono := ([(BW, 5); (BZ, (-2)); (Bt, 6); (Bv, (-3)); (Bpi, (-2)); (BlW, 1)], [(s0, (-3)); (s1, (-3))]).
Definition m472 : mono := ([(BW, 4); (Bt, 2); (Bv, (-2)); (Bpi, (-2)); (BNc, (-1)); (BlW, 1)], [(s0, (-1)); (s1, (-1)); (s20, (-1)); (s21, (-1))]).
Definition m473 : mono := ([(BW, 2); (BZ, 2); (Bt, 2); (Bv, (-2)); (Bpi, (-2)); (BNc, (-1)); (BlW, 1)], [(s0, (-1)); (s1, (-1)); (s20, (-1)); (s21, (-1))]).
Definition m474 : mono := ([(BW, 2); (Bt, 6); (Bv, (-2)); (Bpi, (-2)); (BNc, (-1)); (BlW, 1)], [(s0, (-2)); (s1, (-2)); (s20, (-1)); (s21, (-1))]).
Definition m475 : mono := ([(BW, 4); (Bt, 4); (Bv, (-2)); (Bpi, (-2)); (BNc, (-1)); (BlW, 1)], [(s0, (-2)); (s1, (-2)); (s20, (-1)); (s21, (-1))]).
Definition m476 : mono := ([(BW, 6); (Bt, 2); (Bv, (-2)); (Bpi, (-2)); (BNc, (-1)); (BlW, 1)], [(s0, (-2)); (s1, (-2)); (s20, (-1)); (s21, (-1))]).
Definition m477 : mono := ([(BZ, 2); (Bt, 6); (Bv, (-2)); (Bpi, (-2)); (BNc, (-1)); (BlW, 1)], [(s0, (-2)); (s1, (-2)); (s20, (-1)); (s21, (-1))]).
Definition m478 : mono := ([(BW, 2); (BZ, 2); (Bt, 4); (Bv, (-2)); (Bpi, (-2)); (BNc, (-1)); (BlW, 1)], [(s0, (-2)); (s1, (-2)); (s20, (-1)); (s21, (-1))]).
Definition m479 : mono := ([(BW, 4); (BZ, 2); (Bt, 2); (Bv, (-2)); (Bpi, (-2)); (BNc, (-1)); (BlW, 1)], [(s0, (-2)); (s1, (-2)); (s20, (-1)); (s21, (-1))]).
Definition m480 : mono := ([(BW, 4); (Bt, 1); (Bv, (-1)); (Bg1, 1); (Bpi, (-2)); (Br2, (-1)); (BNc, (-1)); (BlW, 1)], [(s0, (-1)); (s1, (-1)); (s20, (-1)); (s21, (-1))]).
Definition m481 : mono := ([(BW, 2); (Bt, 1); (Bv, (-1)); (Bg3, 1); (Bpi, (-2)); (Br2, (-1)); (BlW, 1)], [(s0, (-1)); (s1, (-1))]).
Definition m482 : mono := ([(BW, 2); (Bt, 1); (Bv, (-1)); (Bg3, 1); (Bpi, (-2)); (Br2, (-1)); (BNc, (-2)); (BlW, 1)], [(s0, (-1)); (s1, (-1))]).
Definition m483 : mono := ([(BW, 4); (Bt, 1); (Bv, (-1)); (Bpi, (-2)); (Br2, (-1)); (BNc, (-1)); (BlW, 1)], [(s0, (-1)); (s1, (-1)); (s15, (-1)); (s16, (-1))]).
Definition m484 : mono := ([(BW, 6); (Bt, (-1)); (Bv, (-1)); (Bpi, (-2)); (Br2, (-1)); (BNc, (-1)); (BlW, 1)], [(s0, (-1)); (s1, (-1)); (s15, (-1)); (s16, (-1))]).
Definition m485 : mono := ([(BW, 6); (BH, (-2)); (Bt, 1); (Bv, (-1)); (Bpi, (-2)); (Br2, (-1)); (BNc, (-1)); (BlW, 1)], [(s0, (-1)); (s1, (-1)); (s15, (-1)); (s16, (-1))]).
Definition m486 : mono := ([(BW, 8); (BH, (-2)); (Bt, (-1)); (Bv, (-1)); (Bpi, (-2)); (Br2, (-1)); (BNc, (-1)); (BlW, 1)], [(s0, (-1)); (s1, (-1)); (s15, (-1)); (s16, (-1))]).
Definition m487 : mono := ([(BW, 5); (Bt, 3); (Bv, (-2)); (Bpi, (-2)); (Br2, (-1)); (BNc, (-1)); (BlW, 1)], [(s0, (-2)); (s1, (-2)); (s20, (-1)); (s21, (-1))]).
Definition m488 : mono := ([(BW, 7); (Bt, 1); (Bv, (-2)); (Bpi, (-2)); (Br2, (-1)); (BNc, (-1)); (BlW, 1)], [(s0, (-2)); (s1, (-2)); (s20, (-1)); (s21, (-1))]).
Definition m489 : mono := ([(BW, 9); (Bt, (-1)); (Bv, (-2)); (Bpi, (-2)); (Br2, (-1)); (BNc, (-1)); (BlW, 1)], [(s0, (-2)); (s1, (-2)); (s20, (-1)); (s21, (-1))]).
Definition m490 : mono := ([(BW, 3); (BZ, 2); (Bt, 3); (Bv, (-2)); (Bpi, (-2)); (Br2, (-1)); (BNc, (-1)); (BlW, 1)], [(s0, (-2)); (s1, (-2)); (s20, (-1)); (s21, (-1))]).
Definition m491 : mono := ([(BW, 5); (BZ, 2); (Bt, 1); (Bv, (-2)); (Bpi, (-2)); (Br2, (-1)); (BNc, (-1)); (BlW, 1)], [(s0, (-2)); (s1, (-2)); (s20, (-1)); (s21, (-1))]).
Definition m492 : mono := ([(BW, 7); (BZ, 2); (Bt, (-1)); (Bv, (-2)); (Bpi, (-2)); (Br2, (-1)); (BNc, (-1)); (BlW, 1)], [(s0, (-2)); (s1, (-2)); (s20, (-1)); (s21, (-1))]).
Definition m493 : mono := ([(BW, 6); (BZ, (-2)); (Bt, 2); (Bv, (-2)); (Bpi, (-2)); (BlW, 1)], [(s0, (-2)); (s1, (-2))]).
Definition m494 : mono := ([(BW, 2); (Bt, 8); (Bv, (-2)); (Bpi, (-2)); (BlW, 1)], [(s0, (-4)); (s1, (-4))]).
Definition m495 : mono := ([(BW, 4); (BZ, (-2)); (Bt, 1); (Bv, (-1)); (Bg1, 1); (Bpi, (-2)); (Br2, (-1)); (BlW, 1)], [(s4, (-1))]).
Definition m496 : mono := ([(BW, 3); (Bt, 7); (Bv, (-2)); (Bpi, (-2)); (Br2, (-1)); (BlW, 1)], [(s0, (-4)); (s1, (-4))]).
Definition m497 : mono := ([(BW, 5); (Bt, 5); (Bv, (-2)); (Bpi, (-2)); (Br2, (-1)); (BlW, 1)], [(s0, (-4)); (s1, (-4))]).
Definition m498 : mono := ([(BW, 7); (Bt, 3); (Bv, (-2)); (Bpi, (-2)); (Br2, (-1)); (BlW, 1)], [(s0, (-4)); (s1, (-4))]).
Definition m499 : mono := ([(BW, 9); (Bt, 1); (Bv, (-2)); (Bpi, (-2)); (Br2, (-1)); (BlW, 1)], [(s0, (-4)); (s1, (-4))]).
Definition m500 : mono := ([(BW, 5); (BZ, (-2)); (Bt, 7); (Bv, (-2)); (Bpi, (-2)); (Br2, (-1)); (BlW, 1)], [(s0, (-4)); (s1, (-4))]).
Definition m501 : mono := ([(BW, 7); (BZ, (-2)); (Bt, 5); (Bv, (-2)); (Bpi, (-2)); (Br2, (-1)); (BlW, 1)], [(s0, (-4)); (s1, (-4))]).
Definition m502 : mono := ([(BW, 11); (BZ, (-2)); (Bt, 1); (Bv, (-2)); (Bpi, (-2)); (Br2, (-1)); (BlW, 1)], [(s0, (-4)); (s1, (-4))]).
Definition m503 : mono := ([(BW, 4); (BZ, (-2)); (Bt, 5); (Bv, (-1)); (Bg1, 1); (Bpi, (-2)); (Br2, (-1)); (BlW, 1)], [(s0, (-3)); (s1, (-3))]).
Definition m504 : mono := ([(BW, 6); (BZ, (-2)); (Bt, 3); (Bv, (-1)); (Bg1, 1); (Bpi, (-2)); (Br2, (-1)); (BlW, 1)], [(s0, (-3)); (s1, (-3))]).
Definition m505 : mono := ([(BW, 3); (Bt, 5); (Bv, (-2)); (Bpi, (-2)); (Br2, (-1)); (BlW, 1)], [(s0, (-3)); (s1, (-3))]).
Definition m506 : mono := ([(BW, 5); (Bt, 3); (Bv, (-2)); (Bpi, (-2)); (Br2, (-1)); (BlW, 1)], [(s0, (-3)); (s1, (-3))]).
Definition m507 : mono := ([(BW, 5); (BZ, (-2)); (Bt, 5); (Bv, (-2)); (Bpi, (-2)); (Br2, (-1)); (BlW, 1)], [(s0, (-3)); (s1, (-3))]).
Definition m508 : mono := ([(BW, 7); (BZ, (-2)); (Bt, 3); (Bv, (-2)); (Bpi, (-2)); (Br2, (-1)); (BlW, 1)], [(s0, (-3)); (s1, (-3))]).
Definition m509 : mono := ([(BW, 2); (Bv, (-2)); (Bpi, (-2)); (BNc, (-1)); (BlZ, 1)], []).
Definition m510 : mono := ([(BW, 4); (BZ, (-2)); (Bv, (-2)); (Bpi, (-2)); (BNc, (-1)); (BlZ, 1)], []).
Definition m511 : mono := ([(BZ, 2); (Bv, (-2)); (Bpi, (-2)); (BNc, (-1)); (BlZ, 1)], []).
Definition m512 : mono := ([(BW, 2); (BH, 2); (Bv, (-4)); (Bpi, (-2)); (BlZ, 1)], [(s5, (-1)); (s6, (-1))]).
Definition m513 : mono := ([(BW, 4); (Bv, (-4)); (Bpi, (-2)); (BlZ, 1)], [(s5, (-1)); (s6, (-1))]).
Definition m514 : mono := ([(BW, 8); (BZ, (-6)); (BH, 2); (Bv, (-4)); (Bpi, (-2)); (BlZ, 1)], [(s5, (-1)); (s6, (-1))]).
Definition m515 : mono := ([(BW, 6); (BZ, (-4)); (BH, 2); (Bv, (-4)); (Bpi, (-2)); (BlZ, 1)], [(s5, (-1)); (s6, (-1))]).
Definition m516 : mono := ([(BW, 8); (BZ, (-4)); (Bv, (-4)); (Bpi, (-2)); (BlZ, 1)], [(s5, (-1)); (s6, (-1))]).
Definition m517 : mono := ([(BW, 4); (BZ, (-2)); (BH, 2); (Bv, (-4)); (Bpi, (-2)); (BlZ, 1)], [(s5, (-1)); (s6, (-1))]).
Definition m518 : mono := ([(BW, 6); (BZ, (-2)); (Bv, (-4)); (Bpi, (-2)); (BlZ, 1)], [(s5, (-1)); (s6, (-1))]).
Definition m519 : mono := ([(BW, 2); (BZ, 2); (Bv, (-4)); (Bpi, (-2)); (BlZ, 1)], [(s5, (-1)); (s6, (-1))]).
Definition m520 : mono := ([(BW, 4); (BZ, 2); (BH, (-2)); (Bv, (-4)); (Bpi, (-2)); (BlZ, 1)], [(s5, (-1)); (s6, (-1))]).
Definition m521 : mono := ([(BZ, 4); (Bv, (-4)); (Bpi, (-2)); (BlZ, 1)], [(s5, (-1)); (s6, (-1))]).
Definition m522 : mono := ([(BW, 2); (BZ, 4); (BH, (-2)); (Bv, (-4)); (Bpi, (-2)); (BlZ, 1)], [(s5, (-1)); (s6, (-1))]).
Definition m523 : mono := ([(BZ, 6); (BH, (-2)); (Bv, (-4)); (Bpi, (-2)); (BlZ, 1)], [(s5, (-1)); (s6, (-1))]).
Definition m524 : mono := ([(BW, 4); (BH, 2); (Bv, (-2)); (Bpi, (-2)); (BlZ, 1)], [(s5, (-2)); (s6, (-2))]).
Definition m525 : mono := ([(BW, 6); (Bv, (-2)); (Bpi, (-2)); (BlZ, 1)], [(s5, (-2)); (s6, (-2))]).
Definition m526 : mono := ([(BW, 6); (BZ, (-2)); (BH, 2); (Bv, (-2)); (Bpi, (-2)); (BlZ, 1)], [(s5, (-2)); (s6, (-2))]).
Definition m527 : mono := ([(BW, 2); (BZ, 2); (BH, 2); (Bv, (-2)); (Bpi, (-2)); (BlZ, 1)], [(s5, (-2)); (s6, (-2))]).
Definition m528 : mono := ([(BW, 4); (BZ, 2); (Bv, (-2)); (Bpi, (-2)); (BlZ, 1)], [(s5, (-2)); (s6, (-2))]).
Definition m529 : mono := ([(BW, 6); (BZ, 2); (BH, (-2)); (Bv, (-2)); (Bpi, (-2)); (BlZ, 1)], [(s5, (-2)); (s6, (-2))]).
Definition m530 : mono := ([(BZ, 4); (BH, 2); (Bv, (-2)); (Bpi, (-2)); (BlZ, 1)], [(s5, (-2)); (s6, (-2))]).
Definition m531 : mono := ([(BW, 2); (BZ, 4); (Bv, (-2)); (Bpi, (-2)); (BlZ, 1)], [(s5, (-2)); (s6, (-2))]).
Definition m532 : mono := ([(BW, 4); (BZ, 4); (BH, (-2)); (Bv, (-2)); (Bpi, (-2)); (BlZ, 1)], [(s5, (-2)); (s6, (-2))]).
Definition m533 : mono := ([(BZ, 6); (Bv, (-2)); (Bpi, (-2)); (BlZ, 1)], [(s5, (-2)); (s6, (-2))]).
Definition m534 : mono := ([(BW, 2); (BZ, 6); (BH, (-2)); (Bv, (-2)); (Bpi, (-2)); (BlZ, 1)], [(s5, (-2)); (s6, (-2))]).
Definition m535 : mono := ([(BZ, 8); (BH, (-2)); (Bv, (-2)); (Bpi, (-2)); (BlZ, 1)], [(s5, (-2)); (s6, (-2))]).
Definition m536 : mono := ([(BW, 4); (Bv, (-2)); (Bpi, (-2)); (BlZ, 1)], [(s5, (-1)); (s6, (-1))]).
Definition m537 : mono := ([(BW, 2); (BZ, 2); (Bv, (-2)); (Bpi, (-2)); (BlZ, 1)], [(s5, (-1)); (s6, (-1))]).
Definition m538 : mono := ([(BW, 4); (BZ, 2); (BH, (-2)); (Bv, (-2)); (Bpi, (-2)); (BlZ, 1)], [(s5, (-1)); (s6, (-1))]).
Definition m539 : mono := ([(BZ, 4); (Bv, (-2)); (Bpi, (-2)); (BlZ, 1)], [(s5, (-1)); (s6, (-1))]).
Definition m540 : mono := ([(BW, 2); (BZ, 4); (BH, (-2)); (Bv, (-2)); (Bpi, (-2)); (BlZ, 1)], [(s5, (-1)); (s6, (-1))]).
Definition m541 : mono := ([(BZ, 6); (BH, (-2)); (Bv, (-2)); (Bpi, (-2)); (BlZ, 1)], [(s5, (-1)); (s6, (-1))]).
Definition m542 : mono := ([(BW, 2); (BH, 2); (Bv, (-2)); (Bpi, (-2)); (BlZ, 1)], [(s5, (-1)); (s6, (-1))]).
Definition m543 : mono := ([(BW, 8); (BZ, (-6)); (BH, 2); (Bv, (-2)); (Bpi, (-2)); (BlZ, 1)], [(s5, (-1)); (s6, (-1))]).
Definition m544 : mono := ([(BW, 6); (BZ, (-4)); (BH, 2); (Bv, (-2)); (Bpi, (-2)); (BlZ, 1)], [(s5, (-1)); (s6, (-1))]).
Definition m545 : mono := ([(BW, 8); (BZ, (-4)); (Bv, (-2)); (Bpi, (-2)); (BlZ, 1)], [(s5, (-1)); (s6, (-1))]).
Definition m546 : mono := ([(BW, 6); (BZ, (-2)); (Bv, (-2)); (Bpi, (-2)); (BlZ, 1)], [(s5, (-1)); (s6, (-1))]).
Definition m547 : mono := ([(BW, 3); (BH, 2); (Bv, (-1)); (Bg1, 1); (Bpi, (-2)); (BlZ, 1)], [(s5, (-2)); (s6, (-2))]).
Definition m548 : mono := ([(BW, 5); (Bv, (-1)); (Bg1, 1); (Bpi, (-2)); (BlZ, 1)], [(s5, (-2)); (s6, (-2))]).
Definition m549 : mono := ([(BW, 7); (BZ, (-6)); (BH, 4); (Bv, (-1)); (Bg1, 1); (Bpi, (-2)); (BlZ, 1)], [(s5, (-2)); (s6, (-2))]).
Definition m550 : mono := ([(BW, 5); (BZ, (-4)); (BH, 4); (Bv, (-1)); (Bg1, 1); (Bpi, (-2)); (BlZ, 1)], [(s5, (-2)); (s6, (-2))]).
Definition m551 : mono := ([(BW, 7); (BZ, (-4)); (BH, 2); (Bv, (-1)); (Bg1, 1); (Bpi, (-2)); (BlZ, 1)], [(s5, (-2)); (s6, (-2))]).
Definition m552 : mono := ([(BW, 3); (BZ, (-2)); (BH, 4); (Bv, (-1)); (Bg1, 1); (Bpi, (-2)); (BlZ, 1)], [(s5, (-2)); (s6, (-2))]).
Definition m553 : mono := ([(BW, 5); (BZ, (-2)); (BH, 2); (Bv, (-1)); (Bg1, 1); (Bpi, (-2)); (BlZ, 1)], [(s5, (-2)); (s6, (-2))]).
Definition m554 : mono := ([(BW, 7); (BZ, (-2)); (Bv, (-1)); (Bg1, 1); (Bpi, (-2)); (BlZ, 1)], [(s5, (-2)); (s6, (-2))]).
Definition m555 : mono := ([(BW, 1); (BZ, 2); (BH, 2); (Bv, (-1)); (Bg1, 1); (Bpi, (-2)); (BlZ, 1)], [(s5, (-2)); (s6, (-2))]).
Definition m556 : mono := ([(BW, 3); (BZ, 2); (Bv, (-1)); (Bg1, 1); (Bpi, (-2)); (BlZ, 1)], [(s5, (-2)); (s6, (-2))]).
Definition m557 : mono := ([(BW, 5); (BZ, 2); (BH, (-2)); (Bv, (-1)); (Bg1, 1); (Bpi, (-2)); (BlZ, 1)], [(s5, (-2)); (s6, (-2))]).
Definition m558 : mono := ([(BW, 1); (BZ, 4); (Bv, (-1)); (Bg1, 1); (Bpi, (-2)); (BlZ, 1)], [(s5, (-2)); (s6, (-2))]).
Definition m559 : mono := ([(BW, 3); (BZ, 4); (BH, (-2)); (Bv, (-1)); (Bg1, 1); (Bpi, (-2)); (BlZ, 1)], [(s5, (-2)); (s6, (-2))]).
Definition m560 : mono := ([(BW, 1); (BZ, 6); (BH, (-2)); (Bv, (-1)); (Bg1, 1); (Bpi, (-2)); (BlZ, 1)], [(s5, (-2)); (s6, (-2))]).
Definition m561 : mono := ([(BW, 6); (BZ, (-4)); (Bv, (-2)); (Bpi, (-2)); (BlZ, 1)], []).
Definition m562 : mono := ([(BW, 4); (Bv, (-4)); (Bpi, (-2)); (BNc, (-1)); (BlZ, 1)], [(s20, (-1)); (s21, (-1))]).
Definition m563 : mono := ([(BW, 6); (BZ, (-2)); (Bv, (-4)); (Bpi, (-2)); (BNc, (-1)); (BlZ, 1)], [(s20, (-1)); (s21, (-1))]).
Definition m564 : mono := ([(BW, 2); (BZ, 2); (Bv, (-4)); (Bpi, (-2)); (BNc, (-1)); (BlZ, 1)], [(s20, (-1)); (s21, (-1))]).
Definition m565 : mono := ([(BZ, 4); (Bv, (-4)); (Bpi, (-2)); (BNc, (-1)); (BlZ, 1)], [(s20, (-1)); (s21, (-1))]).
Definition m566 : mono := ([(BW, 2); (BZ, 4); (BH, (-2)); (Bv, (-4)); (Bpi, (-2)); (BNc, (-1)); (BlZ, 1)], [(s20, (-1)); (s21, (-1))]).
Definition m567 : mono := ([(BZ, 6); (BH, (-2)); (Bv, (-4)); (Bpi, (-2)); (BNc, (-1)); (BlZ, 1)], [(s20, (-1)); (s21, (-1))]).
Definition m568 : mono := ([(BW, 2); (BZ, 2); (BH, (-2)); (Bv, (-2)); (Bpi, (-2)); (BNc, (-1)); (BlZ, 1)], []).
Definition m569 : mono := ([(BZ, 4); (BH, (-2)); (Bv, (-2)); (Bpi, (-2)); (BNc, (-1)); (BlZ, 1)], []).
Definition m570 : mono := ([(BW, 6); (Bv, (-2)); (Bpi, (-2)); (BlZ, 1)], [(s23, (-1))]).
Definition m571 : mono := ([(BW, 4); (BZ, 2); (Bv, (-2)); (Bpi, (-2)); (BlZ, 1)], [(s23, (-1))]).
Definition m572 : mono := ([(BW, 2); (BZ, 4); (Bv, (-2)); (Bpi, (-2)); (BlZ, 1)], [(s23, (-1))]).
Definition m573 : mono := ([(BZ, 6); (Bv, (-2)); (Bpi, (-2)); (BlZ, 1)], [(s23, (-1))]).
Definition m574 : mono := ([(BW, 3); (BZ, (-2)); (Bv, (-1)); (Bg1, 1); (Bpi, (-2)); (BNc, (-1)); (BlZ, 1)], []).
Definition m575 : mono := ([(BW, 1); (BZ, 2); (BH, (-2)); (Bv, (-1)); (Bg1, 1); (Bpi, (-2)); (BNc, (-1)); (BlZ, 1)], []).
Definition m576 : mono := ([(BW, 4); (Bt, 2); (Bv, (-2)); (Bpi, (-2)); (BNc, (-1)); (BlZ, 1)], [(s18, (-1)); (s19, (-1)); (s21, (-1)); (s24, (-1))]).
Definition m577 : mono := ([(BW, 2); (BZ, 2); (Bt, 2); (Bv, (-2)); (Bpi, (-2)); (BNc, (-1)); (BlZ, 1)], [(s18, (-1)); (s19, (-1)); (s21, (-1)); (s24, (-1))]).
Definition m578 : mono := ([(BW, 4); (BZ, 2); (Bv, (-2)); (Bpi, (-2)); (BNc, (-1)); (BlZ, 1)], [(s18, (-1)); (s19, (-1)); (s21, (-1)); (s24, (-1))]).
Definition m579 : mono := ([(BZ, 4); (Bt, 2); (Bv, (-2)); (Bpi, (-2)); (BNc, (-1)); (BlZ, 1)], [(s18, (-1)); (s19, (-1)); (s21, (-1)); (s24, (-1))]).
Definition m580 : mono := ([(BW, 2); (BZ, 4); (Bv, (-2)); (Bpi, (-2)); (BNc, (-1)); (BlZ, 1)], [(s18, (-1)); (s19, (-1)); (s21, (-1)); (s24, (-1))]).
Definition m581 : mono := ([(BZ, 6); (Bv, (-2)); (Bpi, (-2)); (BNc, (-1)); (BlZ, 1)], [(s18, (-1)); (s19, (-1)); (s21, (-1)); (s24, (-1))]).
Definition m582 : mono := ([(BW, 4); (Bt, 1); (Bv, (-1)); (Bg1, 1); (Bpi, (-2)); (Br2, (-1)); (BNc, (-1)); (BlZ, 1)], [(s18, (-1)); (s19, (-1)); (s21, (-1)); (s24, (-1))]).
Definition m583 : mono := ([(BW, 2); (BZ, 2); (Bt, 1); (Bv, (-1)); (Bg1, 1); (Bpi, (-2)); (Br2, (-1)); (BNc, (-1)); (BlZ, 1)], [(s18, (-1)); (s19, (-1)); (s21, (-1)); (s24, (-1))]).
Definition m584 : mono := ([(BW, 4); (BZ, 2); (Bt, (-1)); (Bv, (-1)); (Bg1, 1); (Bpi, (-2)); (Br2, (-1)); (BNc, (-1)); (BlZ, 1)], [(s18, (-1)); (s19, (-1)); (s21, (-1)); (s24, (-1))]).
Definition m585 : mono := ([(BZ, 4); (Bt, 1); (Bv, (-1)); (Bg1, 1); (Bpi, (-2)); (Br2, (-1)); (BNc, (-1)); (BlZ, 1)], [(s18, (-1)); (s19, (-1)); (s21, (-1)); (s24, (-1))]).
Definition m586 : mono := ([(BW, 2); (BZ, 4); (Bt, (-1)); (Bv, (-1)); (Bg1, 1); (Bpi, (-2)); (Br2, (-1)); (BNc, (-1)); (BlZ, 1)], [(s18, (-1)); (s19, (-1)); (s21, (-1)); (s24, (-1))]).
Definition m587 : mono := ([(BZ, 6); (Bt, (-1)); (Bv, (-1)); (Bg1, 1); (Bpi, (-2)); (Br2, (-1)); (BNc, (-1)); (BlZ, 1)], [(s18, (-1)); (s19, (-1)); (s21, (-1)); (s24, (-1))]).
Definition m588 : mono := ([(BZ, 4); (BH, (-2)); (Bt, (-1)); (Bv, (-1)); (Bpi, (-2)); (Br2, (-1)); (BNc, (-1)); (BlZ, 1)], []).
Definition m589 : mono := ([(BW, 5); (Bt, 1); (Bv, (-2)); (Bpi, (-2)); (Br2, (-1)); (BNc, (-1)); (BlZ, 1)], [(s18, (-1)); (s19, (-1)); (s21, (-1)); (s24, (-1))]).
Definition m590 : mono := ([(BW, 3); (BZ, 2); (Bt, 1); (Bv, (-2)); (Bpi, (-2)); (Br2, (-1)); (BNc, (-1)); (BlZ, 1)], [(s18, (-1)); (s19, (-1)); (s21, (-1)); (s24, (-1))]).
Definition m591 : mono := ([(BW, 1); (BZ, 4); (Bt, 1); (Bv, (-2)); (Bpi, (-2)); (Br2, (-1)); (BNc, (-1)); (BlZ, 1)], [(s18, (-1)); (s19, (-1)); (s21, (-1)); (s24, (-1))]).
Definition m592 : mono := ([(BW, 3); (BZ, 4); (Bt, (-1)); (Bv, (-2)); (Bpi, (-2)); (Br2, (-1)); (BNc, (-1)); (BlZ, 1)], [(s18, (-1)); (s19, (-1)); (s21, (-1)); (s24, (-1))]).
Definition m593 : mono := ([(BW, 1); (BZ, 6); (Bt, (-1)); (Bv, (-2)); (Bpi, (-2)); (Br2, (-1)); (BNc, (-1)); (BlZ, 1)], [(s18, (-1)); (s19, (-1)); (s21, (-1)); (s24, (-1))]).
Definition m594 : mono := ([(BW, 6); (BZ, (-4)); (Bt, (-1)); (Bv, (-1)); (Bg1, 1); (Bpi, (-2)); (Br2, 1); (BNc, 1)], []).
Definition m595 : mono := ([(BW, 4); (BZ, (-2)); (Bt, (-1)); (Bv, (-1)); (Bg1, 1); (Bpi, (-2)); (Br2, 1); (BNc, 1)], []).
Definition m596 : mono := ([(BW, 4); (BZ, (-4)); (BH, (-2)); (Bt, 3); (Bv, (-1)); (Bpi, (-2)); (Br2, 1); (BNc, 1)], []).
Definition m597 : mono := ([(BW, 3); (Bt, (-1)); (Bv, (-2)); (Bpi, (-2)); (Br2, 1); (BNc, 1)], []).
Definition m598 : mono := ([(BW, 7); (BZ, (-4)); (Bt, (-1)); (Bv, (-2)); (Bpi, (-2)); (Br2, 1); (BNc, 1)], []).
Definition m599 : mono := ([(BW, 5); (BZ, (-2)); (Bt, (-1)); (Bv, (-2)); (Bpi, (-2)); (Br2, 1); (BNc, 1)], []).
Definition m600 : mono := ([(BW, 9); (BZ, (-2)); (Bt, 3); (Bv, (-2)); (Bpi, (-2)); (Br2, 1); (Blt, 1)], [(s0, (-4)); (s1, (-4))]).
Definition m601 : mono := ([(BW, 6); (BZ, (-6)); (Bt, 1); (Bv, (-1)); (Bg1, 1); (Bpi, (-2)); (Br2, 1); (BNc, 1); (Blt, 1)], []).
Definition m602 : mono := ([(BW, 4); (BZ, (-4)); (BH, (-2)); (Bt, 3); (Bv, (-1)); (Bpi, (-2)); (Br2, 1); (BNc, 1); (Blt, 1)], []).
Definition m603 : mono := ([(BW, 7); (BZ, (-6)); (Bt, 1); (Bv, (-2)); (Bpi, (-2)); (Br2, 1); (BNc, 1); (Blt, 1)], []).
Definition m604 : mono := ([(BW, 5); (BZ, (-4)); (Bt, 1); (Bv, (-2)); (Bpi, (-2)); (Br2, 1); (BNc, 1); (Blt, 1)], []).
Definition m605 : mono := ([(BW, 9); (BZ, (-2)); (Bt, 3); (Bv, (-2)); (Bpi, (-2)); (Br2, 1); (BlW, 1)], [(s0, (-4)); (s1, (-4))]).
Definition m606 : mono := ([(BW, 5); (BZ, 2); (Bt, (-1)); (Bv, (-2)); (Bpi, (-2)); (Br2, 1); (BNc, (-1)); (BlZ, 1)], [(s18, (-1)); (s19, (-1)); (s21, (-1)); (s24, (-1))]).
Definition m607 : mono := ([(Bt, (-2)); (Bg3, 4); (Bpi, (-2))], []).
Definition m608 : mono := ([(BW, 4); (BZ, (-4)); (Bv, (-2)); (Bg3, 2); (Bpi, (-2))], []).
Definition m609 : mono := ([(BW, 4); (BZ, (-4)); (Bv, (-2)); (Bg3, 2); (Bpi, (-2)); (BEv, 1)], []).
Definition m610 : mono := ([(BW, 2); (BZ, (-2)); (Bv, (-2)); (Bg3, 2); (Bpi, (-2))], []).
Definition m611 : mono := ([(BW, 2); (BZ, (-2)); (Bv, (-2)); (Bg3, 2); (Bpi, (-2)); (BEv, 1)], []).
Definition m612 : mono := ([(BW, 4); (BZ, (-4)); (Bg3, 2); (Bpi, (-2))], []).
Definition m613 : mono := ([(BW, 4); (BZ, (-4)); (Bg3, 2); (Bpi, (-2)); (BEv, 1)], []).
Definition m614 : mono := ([(BW, 3); (BZ, (-4)); (Bv, 1); (Bg1, 1); (Bg3, 2); (Bpi, (-2))], []).
Definition m615 : mono := ([(BW, 3); (BZ, (-4)); (Bv, 1); (Bg1, 1); (Bg3, 2); (Bpi, (-2)); (BEv, 1)], []).
Definition m616 : mono := ([(BW, 1); (BZ, (-2)); (Bv, 1); (Bg1, 1); (Bg3, 2); (Bpi, (-2))], []).
Definition m617 : mono := ([(BW, 1); (BZ, (-2)); (Bv, 1); (Bg1, 1); (Bg3, 2); (Bpi, (-2)); (BEv, 1)], []).
Definition m618 : mono := ([(BW, 2); (BZ, (-2)); (Bg3, 2); (Bpi, (-2))], []).
Definition m619 : mono := ([(BW, 2); (BZ, (-2)); (Bg3, 2); (Bpi, (-2)); (BEv, 1)], []).
Definition m620 : mono := ([(Bt, 2); (Bv, (-4)); (Bpi, (-2)); (BNc, 1)], []).
Definition m621 : mono := ([(Bv, (-2)); (Bg3, 2); (Bpi, (-2)); (BNc, (-1))], []).
Definition m622 : mono := ([(Bv, (-2)); (Bg3, 2); (Bpi, (-2)); (BNc, (-1)); (BEv, 1)], []).
Definition m623 : mono := ([(BW, 1); (Bv, (-1)); (Bg1, 1); (Bpi, (-2))], []).
Definition m624 : mono := ([(BW, 3); (BZ, (-2)); (Bv, (-1)); (Bg1, 1); (Bpi, (-2))], []).
Definition m625 : mono := ([(BW, 3); (BZ, (-2)); (Bv, (-1)); (Bg1, 1); (Bpi, (-2)); (BEv, 1)], []).
Definition m626 : mono := ([(BW, 1); (BZ, 2); (BH, (-2)); (Bv, (-1)); (Bg1, 1); (Bpi, (-2))], []).
Definition m627 : mono := ([(Bg3, 2); (Bpi, (-2)); (BNc, (-1))], []).
Definition m628 : mono := ([(Bg3, 2); (Bpi, (-2)); (BNc, (-1)); (BEv, 1)], []).
Definition m629 : mono := ([(Bt, 2); (Bv, (-2)); (Bpi, (-2)); (BNc, 1)], []).
Definition m630 : mono := ([(Bt, 6); (Bv, (-2)); (Bg3, 2); (Bpi, (-2))], [(s0, (-3)); (s1, (-3))]).
Definition m631 : mono := ([(BW, 2); (Bt, 4); (Bv, (-2)); (Bg3, 2); (Bpi, (-2))], [(s0, (-3)); (s1, (-3))]).
Definition m632 : mono := ([(BW, 4); (Bt, 2); (Bv, (-2)); (Bg3, 2); (Bpi, (-2))], [(s0, (-3)); (s1, (-3))]).
Definition m633 : mono := ([(BW, 6); (Bv, (-2)); (Bg3, 2); (Bpi, (-2))], [(s0, (-3)); (s1, (-3))]).
Definition m634 : mono := ([(BW, 4); (Bv, (-2)); (Bpi, (-2))], [(s4, (-1))]).
Definition m635 : mono := ([(BZ, 2); (Bt, 2); (Bv, (-2)); (Bpi, (-2))], [(s4, (-1))]).
Definition m636 : mono := ([(BW, 2); (BZ, 2); (Bv, (-2)); (Bpi, (-2))], [(s4, (-1))]).
Definition m637 : mono := ([(Bt, 1); (Bv, (-1)); (Bg1, 1); (Bpi, (-2)); (Br2, (-1))], []).
Definition m638 : mono := ([(BZ, 2); (Bt, (-1)); (Bv, (-1)); (Bg1, 1); (Bpi, (-2)); (Br2, (-1))], []).
Definition m639 : mono := ([(Bt, 1); (Bv, (-1)); (Bg3, 1); (Bpi, (-2)); (Br2, (-1)); (Bcf, 1)], []).
Definition m640 : mono := ([(Bt, 1); (Bv, (-1)); (Bpi, (-2)); (Br2, (-1))], []).
Definition m641 : mono := ([(BW, 4); (BH, (-2)); (Bt, (-1)); (Bv, (-1)); (Bpi, (-2)); (Br2, (-1))], []).
Definition m642 : mono := ([(BZ, 4); (BH, (-2)); (Bt, (-1)); (Bv, (-1)); (Bpi, (-2)); (Br2, (-1))], []).
Definition m643 : mono := ([(BW, 1); (Bt, 3); (Bv, (-2)); (Bpi, (-2)); (Br2, (-1))], [(s0, (-1)); (s1, (-1))]).
Definition m644 : mono := ([(BW, 3); (Bt, 1); (Bv, (-2)); (Bpi, (-2)); (Br2, (-1))], [(s0, (-1)); (s1, (-1))]).
Definition m645 : mono := ([(BW, 5); (Bt, (-1)); (Bv, (-2)); (Bpi, (-2)); (Br2, (-1))], [(s0, (-1)); (s1, (-1))]).
Definition m646 : mono := ([(BW, 1); (BZ, 2); (Bt, 1); (Bv, (-2)); (Bpi, (-2)); (Br2, (-1))], [(s0, (-1)); (s1, (-1))]).
Definition m647 : mono := ([(BW, 3); (BZ, 2); (Bt, (-1)); (Bv, (-2)); (Bpi, (-2)); (Br2, (-1))], [(s0, (-1)); (s1, (-1))]).
Definition m648 : mono := ([(Bt, 2); (Bv, (-2)); (Bpi, (-2)); (Bcf, 1)], []).
Definition m649 : mono := ([(Bt, 6); (Bg3, 2); (Bpi, (-2))], [(s0, (-3)); (s1, (-3))]).
Definition m650 : mono := ([(BW, 2); (Bt, 4); (Bg3, 2); (Bpi, (-2))], [(s0, (-3)); (s1, (-3))]).
Definition m651 : mono := ([(BW, 4); (Bt, 2); (Bg3, 2); (Bpi, (-2))], [(s0, (-3)); (s1, (-3))]).
Definition m652 : mono := ([(BW, 6); (Bg3, 2); (Bpi, (-2))], [(s0, (-3)); (s1, (-3))]).
Definition m653 : mono := ([(BW, 1); (Bt, 5); (Bg3, 2); (Bpi, (-2)); (Br2, (-1))], [(s0, (-3)); (s1, (-3))]).
Definition m654 : mono := ([(BW, 3); (Bt, 3); (Bg3, 2); (Bpi, (-2)); (Br2, (-1))], [(s0, (-3)); (s1, (-3))]).
Definition m655 : mono := ([(BW, 5); (Bt, 1); (Bg3, 2); (Bpi, (-2)); (Br2, (-1))], [(s0, (-3)); (s1, (-3))]).
Definition m656 : mono := ([(Bt, (-1)); (Bv, 1); (Bg3, 3); (Bpi, (-2)); (Br2, (-1))], []).
Definition m657 : mono := ([(Bt, 5); (Bv, (-1)); (Bg3, 1); (Bpi, (-2)); (Br2, (-1))], [(s0, (-2)); (s1, (-2))]).
Definition m658 : mono := ([(BW, 2); (Bt, 3); (Bv, (-1)); (Bg3, 1); (Bpi, (-2)); (Br2, (-1))], [(s0, (-2)); (s1, (-2))]).
Definition m659 : mono := ([(BW, 4); (Bt, 1); (Bv, (-1)); (Bg3, 1); (Bpi, (-2)); (Br2, (-1))], [(s0, (-2)); (s1, (-2))]).
Definition m660 : mono := ([(BH, 4); (Bv, (-4)); (Bpi, (-2)); (BlH, 1)], [(s25, (-1))]).
Definition m661 : mono := ([(BW, 2); (BH, 2); (Bv, (-4)); (Bpi, (-2)); (BlH, 1)], [(s25, (-1))]).
Definition m662 : mono := ([(BH, 4); (Bv, (-2)); (Bpi, (-2)); (BlH, 1)], [(s26, (-1))]).
Definition m663 : mono := ([(BW, 2); (BH, 2); (Bv, (-2)); (Bpi, (-2)); (BlH, 1)], [(s26, (-1))]).
Definition m664 : mono := ([(BH, 4); (Bv, (-2)); (Bpi, (-2)); (BlH, 1)], [(s25, (-1))]).
Definition m665 : mono := ([(BW, 2); (BH, 2); (Bv, (-2)); (Bpi, (-2)); (BlH, 1)], [(s25, (-1))]).
Definition m666 : mono := ([(BH, 4); (Bt, 1); (Bv, (-1)); (Bpi, (-2)); (Br2, (-1)); (BlH, 1)], [(s13, (-1)); (s14, (-1)); (s15, (-1)); (s16, (-1))]).
Definition m667 : mono := ([(BW, 2); (BH, 2); (Bt, 1); (Bv, (-1)); (Bpi, (-2)); (Br2, (-1)); (BlH, 1)], [(s13, (-1)); (s14, (-1)); (s15, (-1)); (s16, (-1))]).
Definition m668 : mono := ([(BW, 4); (Bt, 4); (Bv, (-2)); (Bg3, 2); (Bpi, (-2)); (Blt, 1)], [(s0, (-4)); (s1, (-4))]).
Definition m669 : mono := ([(BW, 6); (Bt, 2); (Bv, (-2)); (Bg3, 2); (Bpi, (-2)); (Blt, 1)], [(s0, (-4)); (s1, (-4))]).
Definition m670 : mono := ([(BW, 8); (Bv, (-2)); (Bg3, 2); (Bpi, (-2)); (Blt, 1)], [(s0, (-4)); (s1, (-4))]).
Definition m671 : mono := ([(Bt, 6); (Bv, (-2)); (Bpi, (-2)); (Blt, 1)], [(s0, (-1)); (s1, (-1)); (s18, (-1)); (s19, (-1))]).
Definition m672 : mono := ([(BW, 2); (Bt, 4); (Bv, (-2)); (Bpi, (-2)); (Blt, 1)], [(s0, (-1)); (s1, (-1)); (s18, (-1)); (s19, (-1))]).
Definition m673 : mono := ([(BW, 4); (Bt, 2); (Bv, (-2)); (Bpi, (-2)); (Blt, 1)], [(s0, (-1)); (s1, (-1)); (s18, (-1)); (s19, (-1))]).
Definition m674 : mono := ([(BZ, 2); (Bt, 4); (Bv, (-2)); (Bpi, (-2)); (Blt, 1)], [(s0, (-1)); (s1, (-1)); (s18, (-1)); (s19, (-1))]).
Definition m675 : mono := ([(BW, 2); (BZ, 2); (Bt, 2); (Bv, (-2)); (Bpi, (-2)); (Blt, 1)], [(s0, (-1)); (s1, (-1)); (s18, (-1)); (s19, (-1))]).
Definition m676 : mono := ([(Bt, 8); (Bv, (-2)); (Bpi, (-2)); (Blt, 1)], [(s0, (-2)); (s1, (-2)); (s18, (-1)); (s19, (-1))]).
Definition m677 : mono := ([(BW, 2); (Bt, 6); (Bv, (-2)); (Bpi, (-2)); (Blt, 1)], [(s0, (-2)); (s1, (-2)); (s18, (-1)); (s19, (-1))]).
Definition m678 : mono := ([(BW, 4); (Bt, 4); (Bv, (-2)); (Bpi, (-2)); (Blt, 1)], [(s0, (-2)); (s1, (-2)); (s18, (-1)); (s19, (-1))]).
Definition m679 : mono := ([(BW, 6); (Bt, 2); (Bv, (-2)); (Bpi, (-2)); (Blt, 1)], [(s0, (-2)); (s1, (-2)); (s18, (-1)); (s19, (-1))]).
Definition m680 : mono := ([(BZ, 2); (Bt, 6); (Bv, (-2)); (Bpi, (-2)); (Blt, 1)], [(s0, (-2)); (s1, (-2)); (s18, (-1)); (s19, (-1))]).
Definition m681 : mono := ([(BW, 2); (BZ, 2); (Bt, 4); (Bv, (-2)); (Bpi, (-2)); (Blt, 1)], [(s0, (-2)); (s1, (-2)); (s18, (-1)); (s19, (-1))]).
Definition m682 : mono := ([(BW, 4); (BZ, 2); (Bt, 2); (Bv, (-2)); (Bpi, (-2)); (Blt, 1)], [(s0, (-2)); (s1, (-2)); (s18, (-1)); (s19, (-1))]).
Definition m683 : mono := ([(Bt, 5); (Bv, (-1)); (Bg1, 1); (Bpi, (-2)); (Br2, (-1)); (Blt, 1)], [(s0, (-1)); (s1, (-1)); (s18, (-1)); (s19, (-1))]).
Definition m684 : mono := ([(BW, 2); (Bt, 3); (Bv, (-1)); (Bg1, 1); (Bpi, (-2)); (Br2, (-1)); (Blt, 1)], [(s0, (-1)); (s1, (-1)); (s18, (-1)); (s19, (-1))]).
Definition m685 : mono := ([(BW, 4); (Bt, 1); (Bv, (-1)); (Bg1, 1); (Bpi, (-2)); (Br2, (-1)); (Blt, 1)], [(s0, (-1)); (s1, (-1)); (s18, (-1)); (s19, (-1))]).
Definition m686 : mono := ([(Bt, 3); (Bv, (-1)); (Bg3, 1); (Bpi, (-2)); (Br2, (-1)); (Bcf, 1); (Blt, 1)], [(s0, (-1)); (s1, (-1))]).
Definition m687 : mono := ([(BW, 2); (Bt, 1); (Bv, (-1)); (Bg3, 1); (Bpi, (-2)); (Br2, (-1)); (Bcf, 1); (Blt, 1)], [(s0, (-1)); (s1, (-1))]).
Definition m688 : mono := ([(BW, 2); (Bt, 1); (Bv, (-1)); (Bg3, 1); (Bpi, (-2)); (Br2, (-1)); (BNc, (-1)); (Blt, 1)], [(s0, (-1)); (s1, (-1))]).
Definition m689 : mono := ([(Bt, 5); (Bv, (-1)); (Bpi, (-2)); (Br2, (-1)); (BNc, 1); (Blt, 1)], [(s0, (-1)); (s1, (-1)); (s13, (-1)); (s14, (-1))]).
Definition m690 : mono := ([(BH, (-2)); (Bt, 7); (Bv, (-1)); (Bpi, (-2)); (Br2, (-1)); (BNc, 1); (Blt, 1)], [(s0, (-1)); (s1, (-1)); (s13, (-1)); (s14, (-1))]).
Definition m691 : mono := ([(BW, 2); (Bt, 3); (Bv, (-1)); (Bpi, (-2)); (Br2, (-1)); (BNc, 1); (Blt, 1)], [(s0, (-1)); (s1, (-1)); (s13, (-1)); (s14, (-1))]).
Definition m692 : mono := ([(BW, 2); (BH, (-2)); (Bt, 5); (Bv, (-1)); (Bpi, (-2)); (Br2, (-1)); (BNc, 1); (Blt, 1)], [(s0, (-1)); (s1, (-1)); (s13, (-1)); (s14, (-1))]).
Definition m693 : mono := ([(BW, 3); (Bt, 5); (Bv, (-2)); (Bpi, (-2)); (Br2, (-1)); (Blt, 1)], [(s0, (-2)); (s1, (-2)); (s18, (-1)); (s19, (-1))]).
Definition m694 : mono := ([(BW, 5); (Bt, 3); (Bv, (-2)); (Bpi, (-2)); (Br2, (-1)); (Blt, 1)], [(s0, (-2)); (s1, (-2)); (s18, (-1)); (s19, (-1))]).
Definition m695 : mono := ([(BW, 7); (Bt, 1); (Bv, (-2)); (Bpi, (-2)); (Br2, (-1)); (Blt, 1)], [(s0, (-2)); (s1, (-2)); (s18, (-1)); (s19, (-1))]).
Definition m696 : mono := ([(BW, 1); (BZ, 2); (Bt, 5); (Bv, (-2)); (Bpi, (-2)); (Br2, (-1)); (Blt, 1)], [(s0, (-2)); (s1, (-2)); (s18, (-1)); (s19, (-1))]).
Definition m697 : mono := ([(BW, 3); (BZ, 2); (Bt, 3); (Bv, (-2)); (Bpi, (-2)); (Br2, (-1)); (Blt, 1)], [(s0, (-2)); (s1, (-2)); (s18, (-1)); (s19, (-1))]).
Definition m698 : mono := ([(BW, 5); (BZ, 2); (Bt, 1); (Bv, (-2)); (Bpi, (-2)); (Br2, (-1)); (Blt, 1)], [(s0, (-2)); (s1, (-2)); (s18, (-1)); (s19, (-1))]).
Definition m699 : mono := ([(Bt, 2); (Bv, (-2)); (Bpi, (-2)); (Bcf, 1); (Blt, 1)], []).
Definition m700 : mono := ([(BW, 4); (Bt, 4); (Bg3, 2); (Bpi, (-2)); (Blt, 1)], [(s0, (-4)); (s1, (-4))]).
Definition m701 : mono := ([(BW, 6); (Bt, 2); (Bg3, 2); (Bpi, (-2)); (Blt, 1)], [(s0, (-4)); (s1, (-4))]).
Definition m702 : mono := ([(BW, 8); (Bg3, 2); (Bpi, (-2)); (Blt, 1)], [(s0, (-4)); (s1, (-4))]).
Definition m703 : mono := ([(BW, 2); (Bt, 1); (Bv, (-1)); (Bg3, 1); (Bpi, (-2)); (Br2, (-1)); (Blt, 1)], [(s2, (-1))]).
Definition m704 : mono := ([(BW, 5); (Bt, 3); (Bg3, 2); (Bpi, (-2)); (Br2, (-1)); (Blt, 1)], [(s0, (-4)); (s1, (-4))]).
Definition m705 : mono := ([(BW, 7); (Bt, 1); (Bg3, 2); (Bpi, (-2)); (Br2, (-1)); (Blt, 1)], [(s0, (-4)); (s1, (-4))]).
Definition m706 : mono := ([(BW, 2); (Bt, 5); (Bv, (-1)); (Bg3, 1); (Bpi, (-2)); (Br2, (-1)); (Blt, 1)], [(s0, (-3)); (s1, (-3))]).
Definition m707 : mono := ([(BW, 4); (Bt, 3); (Bv, (-1)); (Bg3, 1); (Bpi, (-2)); (Br2, (-1)); (Blt, 1)], [(s0, (-3)); (s1, (-3))]).
Definition m708 : mono := ([(BW, 4); (BH, 2); (Bv, (-4)); (Bpi, (-2)); (BlW, 1)], [(s15, (-1)); (s16, (-1)); (s20, (-1)); (s21, (-1))]).
Definition m709 : mono := ([(BW, 6); (Bv, (-4)); (Bpi, (-2)); (BlW, 1)], [(s15, (-1)); (s16, (-1)); (s20, (-1)); (s21, (-1))]).
Definition m710 : mono := ([(BW, 8); (BH, (-2)); (Bv, (-4)); (Bpi, (-2)); (BlW, 1)], [(s15, (-1)); (s16, (-1)); (s20, (-1)); (s21, (-1))]).
Definition m711 : mono := ([(BW, 2); (BZ, 2); (BH, 2); (Bv, (-4)); (Bpi, (-2)); (BlW, 1)], [(s15, (-1)); (s16, (-1)); (s20, (-1)); (s21, (-1))]).
Definition m712 : mono := ([(BW, 4); (BZ, 2); (Bv, (-4)); (Bpi, (-2)); (BlW, 1)], [(s15, (-1)); (s16, (-1)); (s20, (-1)); (s21, (-1))]).
Definition m713 : mono := ([(BW, 6); (BZ, 2); (BH, (-2)); (Bv, (-4)); (Bpi, (-2)); (BlW, 1)], [(s15, (-1)); (s16, (-1)); (s20, (-1)); (s21, (-1))]).
Definition m714 : mono := ([(Bv, (-2)); (Bg3, 2); (Bpi, (-2)); (BNc, (-1)); (BlW, 1)], []).
Definition m715 : mono := ([(BW, 4); (BH, 2); (Bv, (-2)); (Bpi, (-2)); (BlW, 1)], [(s27, (-1))]).
Definition m716 : mono := ([(BW, 6); (Bv, (-2)); (Bpi, (-2)); (BlW, 1)], [(s27, (-1))]).
Definition m717 : mono := ([(BW, 4); (BH, 2); (Bv, (-2)); (Bpi, (-2)); (BlW, 1)], [(s15, (-1)); (s16, (-1)); (s20, (-1)); (s21, (-1))]).
Definition m718 : mono := ([(BW, 6); (Bv, (-2)); (Bpi, (-2)); (BlW, 1)], [(s15, (-1)); (s16, (-1)); (s20, (-1)); (s21, (-1))]).
Definition m719 : mono := ([(BW, 8); (BH, (-2)); (Bv, (-2)); (Bpi, (-2)); (BlW, 1)], [(s15, (-1)); (s16, (-1)); (s20, (-1)); (s21, (-1))]).
Definition m720 : mono := ([(BW, 2); (BZ, 2); (BH, 2); (Bv, (-2)); (Bpi, (-2)); (BlW, 1)], [(s15, (-1)); (s16, (-1)); (s20, (-1)); (s21, (-1))]).
Definition m721 : mono := ([(BW, 4); (BZ, 2); (Bv, (-2)); (Bpi, (-2)); (BlW, 1)], [(s15, (-1)); (s16, (-1)); (s20, (-1)); (s21, (-1))]).
Definition m722 : mono := ([(BW, 6); (BZ, 2); (BH, (-2)); (Bv, (-2)); (Bpi, (-2)); (BlW, 1)], [(s15, (-1)); (s16, (-1)); (s20, (-1)); (s21, (-1))]).
Definition m723 : mono := ([(Bg3, 2); (Bpi, (-2)); (BNc, (-1)); (BlW, 1)], []).
Definition m724 : mono := ([(Bt, 8); (Bv, (-2)); (Bg3, 2); (Bpi, (-2)); (BlW, 1)], [(s0, (-4)); (s1, (-4))]).
Definition m725 : mono := ([(BW, 2); (Bt, 6); (Bv, (-2)); (Bg3, 2); (Bpi, (-2)); (BlW, 1)], [(s0, (-4)); (s1, (-4))]).
Definition m726 : mono := ([(BW, 4); (Bt, 4); (Bv, (-2)); (Bg3, 2); (Bpi, (-2)); (BlW, 1)], [(s0, (-4)); (s1, (-4))]).
Definition m727 : mono := ([(BW, 4); (Bt, 2); (Bv, (-2)); (Bpi, (-2)); (BlW, 1)], [(s0, (-1)); (s1, (-1)); (s20, (-1)); (s21, (-1))]).
Definition m728 : mono := ([(BW, 2); (BZ, 2); (Bt, 2); (Bv, (-2)); (Bpi, (-2)); (BlW, 1)], [(s0, (-1)); (s1, (-1)); (s20, (-1)); (s21, (-1))]).
Definition m729 : mono := ([(BW, 2); (Bt, 6); (Bv, (-2)); (Bpi, (-2)); (BlW, 1)], [(s0, (-2)); (s1, (-2)); (s20, (-1)); (s21, (-1))]).
Definition m730 : mono := ([(BW, 4); (Bt, 4); (Bv, (-2)); (Bpi, (-2)); (BlW, 1)], [(s0, (-2)); (s1, (-2)); (s20, (-1)); (s21, (-1))]).
Definition m731 : mono := ([(BW, 6); (Bt, 2); (Bv, (-2)); (Bpi, (-2)); (BlW, 1)], [(s0, (-2)); (s1, (-2)); (s20, (-1)); (s21, (-1))]).
Definition m732 : mono := ([(BZ, 2); (Bt, 6); (Bv, (-2)); (Bpi, (-2)); (BlW, 1)], [(s0, (-2)); (s1, (-2)); (s20, (-1)); (s21, (-1))]).
Definition m733 : mono := ([(BW, 2); (BZ, 2); (Bt, 4); (Bv, (-2)); (Bpi, (-2)); (BlW, 1)], [(s0, (-2)); (s1, (-2)); (s20, (-1)); (s21, (-1))]).
Definition m734 : mono := ([(BW, 4); (BZ, 2); (Bt, 2); (Bv, (-2)); (Bpi, (-2)); (BlW, 1)], [(s0, (-2)); (s1, (-2)); (s20, (-1)); (s21, (-1))]).
Definition m735 : mono := ([(BW, 4); (Bt, 1); (Bv, (-1)); (Bg1, 1); (Bpi, (-2)); (Br2, (-1)); (BlW, 1)], [(s0, (-1)); (s1, (-1)); (s20, (-1)); (s21, (-1))]).
Definition m736 : mono := ([(BW, 2); (Bt, 1); (Bv, (-1)); (Bg3, 1); (Bpi, (-2)); (Br2, (-1)); (BlW, 1)], [(s28, (-1))]).
Definition m737 : mono := ([(BW, 4); (Bt, 1); (Bv, (-1)); (Bpi, (-2)); (Br2, (-1)); (BlW, 1)], [(s0, (-1)); (s1, (-1)); (s15, (-1)); (s16, (-1))]).
Definition m738 : mono := ([(BW, 6); (Bt, (-1)); (Bv, (-1)); (Bpi, (-2)); (Br2, (-1)); (BlW, 1)], [(s0, (-1)); (s1, (-1)); (s15, (-1)); (s16, (-1))]).
Definition m739 : mono := ([(BW, 6); (BH, (-2)); (Bt, 1); (Bv, (-1)); (Bpi, (-2)); (Br2, (-1)); (BlW, 1)], [(s0, (-1)); (s1, (-1)); (s15, (-1)); (s16, (-1))]).
Definition m740 : mono := ([(BW, 8); (BH, (-2)); (Bt, (-1)); (Bv, (-1)); (Bpi, (-2)); (Br2, (-1)); (BlW, 1)], [(s0, (-1)); (s1, (-1)); (s15, (-1)); (s16, (-1))]).
Definition m741 : mono := ([(BW, 5); (Bt, 3); (Bv, (-2)); (Bpi, (-2)); (Br2, (-1)); (BlW, 1)], [(s0, (-2)); (s1, (-2)); (s20, (-1)); (s21, (-1))]).
Definition m742 : mono := ([(BW, 7); (Bt, 1); (Bv, (-2)); (Bpi, (-2)); (Br2, (-1)); (BlW, 1)], [(s0, (-2)); (s1, (-2)); (s20, (-1)); (s21, (-1))]).
Definition m743 : mono := ([(BW, 9); (Bt, (-1)); (Bv, (-2)); (Bpi, (-2)); (Br2, (-1)); (BlW, 1)], [(s0, (-2)); (s1, (-2)); (s20, (-1)); (s21, (-1))]).
Definition m744 : mono := ([(BW, 5); (BZ, 2); (Bt, 1); (Bv, (-2)); (Bpi, (-2)); (Br2, (-1)); (BlW, 1)], [(s0, (-2)); (s1, (-2)); (s20, (-1)); (s21, (-1))]).
Definition m745 : mono := ([(BW, 7); (BZ, 2); (Bt, (-1)); (Bv, (-2)); (Bpi, (-2)); (Br2, (-1)); (BlW, 1)], [(s0, (-2)); (s1, (-2)); (s20, (-1)); (s21, (-1))]).
Definition m746 : mono := ([(Bt, 8); (Bg3, 2); (Bpi, (-2)); (BlW, 1)], [(s0, (-4)); (s1, (-4))]).
Definition m747 : mono := ([(BW, 2); (Bt, 6); (Bg3, 2); (Bpi, (-2)); (BlW, 1)], [(s0, (-4)); (s1, (-4))]).
Definition m748 : mono := ([(BW, 4); (Bt, 4); (Bg3, 2); (Bpi, (-2)); (BlW, 1)], [(s0, (-4)); (s1, (-4))]).
Definition m749 : mono := ([(BW, 2); (Bt, 1); (Bv, (-1)); (Bg3, 1); (Bpi, (-2)); (Br2, (-1)); (BlW, 1)], [(s4, (-1))]).
Definition m750 : mono := ([(BW, 5); (Bt, 3); (Bg3, 2); (Bpi, (-2)); (Br2, (-1)); (BlW, 1)], [(s0, (-4)); (s1, (-4))]).
Definition m751 : mono := ([(BW, 7); (Bt, 1); (Bg3, 2); (Bpi, (-2)); (Br2, (-1)); (BlW, 1)], [(s0, (-4)); (s1, (-4))]).
Definition m752 : mono := ([(BW, 2); (Bt, 5); (Bv, (-1)); (Bg3, 1); (Bpi, (-2)); (Br2, (-1)); (BlW, 1)], [(s0, (-3)); (s1, (-3))]).
Definition m753 : mono := ([(BW, 4); (Bt, 3); (Bv, (-1)); (Bg3, 1); (Bpi, (-2)); (Br2, (-1)); (BlW, 1)], [(s0, (-3)); (s1, (-3))]).
Definition m754 : mono := ([(Bv, (-2)); (Bg3, 2); (Bpi, (-2)); (BlZ, 1)], []).
Definition m755 : mono := ([(BW, 4); (BZ, (-4)); (Bv, (-2)); (Bg3, 2); (Bpi, (-2)); (BlZ, 1)], []).
Definition m756 : mono := ([(BW, 2); (BZ, (-2)); (Bv, (-2)); (Bg3, 2); (Bpi, (-2)); (BlZ, 1)], []).
Definition m757 : mono := ([(Bg3, 2); (Bpi, (-2)); (BlZ, 1)], []).
Definition m758 : mono := ([(BW, 4); (BZ, (-4)); (Bg3, 2); (Bpi, (-2)); (BlZ, 1)], []).
Definition m759 : mono := ([(BW, 3); (BZ, (-4)); (Bv, 1); (Bg1, 1); (Bg3, 2); (Bpi, (-2)); (BlZ, 1)], []).
Definition m760 : mono := ([(BW, 1); (BZ, (-2)); (Bv, 1); (Bg1, 1); (Bg3, 2); (Bpi, (-2)); (BlZ, 1)], []).
Definition m761 : mono := ([(BW, 2); (BZ, (-2)); (Bg3, 2); (Bpi, (-2)); (BlZ, 1)], []).
Definition m762 : mono := ([(BW, 4); (Bv, (-4)); (Bpi, (-2)); (BlZ, 1)], [(s20, (-1)); (s21, (-1))]).
Definition m763 : mono := ([(BW, 6); (BZ, (-2)); (Bv, (-4)); (Bpi, (-2)); (BlZ, 1)], [(s20, (-1)); (s21, (-1))]).
Definition m764 : mono := ([(BW, 2); (BZ, 2); (Bv, (-4)); (Bpi, (-2)); (BlZ, 1)], [(s20, (-1)); (s21, (-1))]).
Definition m765 : mono := ([(BZ, 4); (Bv, (-4)); (Bpi, (-2)); (BlZ, 1)], [(s20, (-1)); (s21, (-1))]).
Definition m766 : mono := ([(BW, 2); (BZ, 4); (BH, (-2)); (Bv, (-4)); (Bpi, (-2)); (BlZ, 1)], [(s20, (-1)); (s21, (-1))]).
Definition m767 : mono := ([(BZ, 6); (BH, (-2)); (Bv, (-4)); (Bpi, (-2)); (BlZ, 1)], [(s20, (-1)); (s21, (-1))]).
Definition m768 : mono := ([(BW, 2); (BZ, 2); (BH, (-2)); (Bv, (-2)); (Bpi, (-2)); (BlZ, 1)], []).
Definition m769 : mono := ([(BZ, 4); (BH, (-2)); (Bv, (-2)); (Bpi, (-2)); (BlZ, 1)], []).
Definition m770 : mono := ([(BW, 4); (Bv, (-2)); (Bpi, (-2)); (BlZ, 1)], [(s29, (-1))]).
Definition m771 : mono := ([(BW, 6); (BZ, (-2)); (Bv, (-2)); (Bpi, (-2)); (BlZ, 1)], [(s29, (-1))]).
Definition m772 : mono := ([(BW, 2); (BZ, 2); (Bv, (-2)); (Bpi, (-2)); (BlZ, 1)], [(s29, (-1))]).
Definition m773 : mono := ([(BZ, 4); (Bv, (-2)); (Bpi, (-2)); (BlZ, 1)], [(s29, (-1))]).
Definition m774 : mono := ([(BW, 3); (BZ, (-2)); (Bv, (-1)); (Bg1, 1); (Bpi, (-2)); (BlZ, 1)], []).
Definition m775 : mono := ([(BW, 1); (BZ, 2); (BH, (-2)); (Bv, (-1)); (Bg1, 1); (Bpi, (-2)); (BlZ, 1)], []).
Definition m776 : mono := ([(BW, 4); (Bt, 2); (Bv, (-2)); (Bpi, (-2)); (BlZ, 1)], [(s18, (-1)); (s19, (-1)); (s21, (-1)); (s24, (-1))]).
Definition m777 : mono := ([(BW, 2); (BZ, 2); (Bt, 2); (Bv, (-2)); (Bpi, (-2)); (BlZ, 1)], [(s18, (-1)); (s19, (-1)); (s21, (-1)); (s24, (-1))]).
Definition m778 : mono := ([(BW, 4); (BZ, 2); (Bv, (-2)); (Bpi, (-2)); (BlZ, 1)], [(s18, (-1)); (s19, (-1)); (s21, (-1)); (s24, (-1))]).
Definition m779 : mono := ([(BZ, 4); (Bt, 2); (Bv, (-2)); (Bpi, (-2)); (BlZ, 1)], [(s18, (-1)); (s19, (-1)); (s21, (-1)); (s24, (-1))]).
Definition m780 : mono := ([(BW, 2); (BZ, 4); (Bv, (-2)); (Bpi, (-2)); (BlZ, 1)], [(s18, (-1)); (s19, (-1)); (s21, (-1)); (s24, (-1))]).
Definition m781 : mono := ([(BZ, 6); (Bv, (-2)); (Bpi, (-2)); (BlZ, 1)], [(s18, (-1)); (s19, (-1)); (s21, (-1)); (s24, (-1))]).
Definition m782 : mono := ([(BW, 4); (Bt, 1); (Bv, (-1)); (Bg1, 1); (Bpi, (-2)); (Br2, (-1)); (BlZ, 1)], [(s18, (-1)); (s19, (-1)); (s21, (-1)); (s24, (-1))]).
Definition m783 : mono := ([(BW, 2); (BZ, 2); (Bt, 1); (Bv, (-1)); (Bg1, 1); (Bpi, (-2)); (Br2, (-1)); (BlZ, 1)], [(s18, (-1)); (s19, (-1)); (s21, (-1)); (s24, (-1))]).
Definition m784 : mono := ([(BZ, 4); (Bt, 1); (Bv, (-1)); (Bg1, 1); (Bpi, (-2)); (Br2, (-1)); (BlZ, 1)], [(s18, (-1)); (s19, (-1)); (s21, (-1)); (s24, (-1))]).
Definition m785 : mono := ([(BW, 2); (BZ, 4); (Bt, (-1)); (Bv, (-1)); (Bg1, 1); (Bpi, (-2)); (Br2, (-1)); (BlZ, 1)], [(s18, (-1)); (s19, (-1)); (s21, (-1)); (s24, (-1))]).
Definition m786 : mono := ([(BZ, 6); (Bt, (-1)); (Bv, (-1)); (Bg1, 1); (Bpi, (-2)); (Br2, (-1)); (BlZ, 1)], [(s18, (-1)); (s19, (-1)); (s21, (-1)); (s24, (-1))]).
Definition m787 : mono := ([(BZ, 4); (BH, (-2)); (Bt, (-1)); (Bv, (-1)); (Bpi, (-2)); (Br2, (-1)); (BlZ, 1)], []).
Definition m788 : mono := ([(BW, 5); (Bt, 1); (Bv, (-2)); (Bpi, (-2)); (Br2, (-1)); (BlZ, 1)], [(s18, (-1)); (s19, (-1)); (s21, (-1)); (s24, (-1))]).
Definition m789 : mono := ([(BW, 3); (BZ, 2); (Bt, 1); (Bv, (-2)); (Bpi, (-2)); (Br2, (-1)); (BlZ, 1)], [(s18, (-1)); (s19, (-1)); (s21, (-1)); (s24, (-1))]).
Definition m790 : mono := ([(BW, 1); (BZ, 4); (Bt, 1); (Bv, (-2)); (Bpi, (-2)); (Br2, (-1)); (BlZ, 1)], [(s18, (-1)); (s19, (-1)); (s21, (-1)); (s24, (-1))]).
Definition m791 : mono := ([(BW, 3); (BZ, 4); (Bt, (-1)); (Bv, (-2)); (Bpi, (-2)); (Br2, (-1)); (BlZ, 1)], [(s18, (-1)); (s19, (-1)); (s21, (-1)); (s24, (-1))]).
Definition m792 : mono := ([(BW, 1); (BZ, 6); (Bt, (-1)); (Bv, (-2)); (Bpi, (-2)); (Br2, (-1)); (BlZ, 1)], [(s18, (-1)); (s19, (-1)); (s21, (-1)); (s24, (-1))]).
Definition m793 : mono := ([(BW, 2); (Bt, (-1)); (Bv, (-1)); (Bg1, 1); (Bpi, (-2)); (Br2, 1)], []).
Definition m794 : mono := ([(BW, 3); (BZ, 2); (Bt, 3); (Bv, (-2)); (Bpi, (-2)); (Br2, 1); (BlW, 1)], [(s0, (-2)); (s1, (-2)); (s20, (-1)); (s21, (-1))]).
Definition m795 : mono := ([(BW, 4); (BZ, 2); (Bt, (-1)); (Bv, (-1)); (Bg1, 1); (Bpi, (-2)); (Br2, 1); (BlZ, 1)], [(s18, (-1)); (s19, (-1)); (s21, (-1)); (s24, (-1))]).
Definition m796 : mono := ([(BW, 5); (BZ, 2); (Bt, (-1)); (Bv, (-2)); (Bpi, (-2)); (Br2, 1); (BlZ, 1)], [(s18, (-1)); (s19, (-1)); (s21, (-1)); (s24, (-1))]).
Definition m797 : mono := ([(Bt, (-2)); (Bg3, 4); (Bpi, (-2)); (BNc, (-1))], []).
Definition m798 : mono := ([(BW, 4); (BZ, (-4)); (Bv, (-2)); (Bg3, 2); (Bpi, (-2)); (BNc, (-1))], []).
Definition m799 : mono := ([(BW, 4); (BZ, (-4)); (Bv, (-2)); (Bg3, 2); (Bpi, (-2)); (BNc, (-1)); (BEv, 1)], []).
Definition m800 : mono := ([(BW, 2); (BZ, (-2)); (Bv, (-2)); (Bg3, 2); (Bpi, (-2)); (BNc, (-1))], []).
Definition m801 : mono := ([(BW, 2); (BZ, (-2)); (Bv, (-2)); (Bg3, 2); (Bpi, (-2)); (BNc, (-1)); (BEv, 1)], []).
Definition m802 : mono := ([(BW, 4); (BZ, (-4)); (Bg3, 2); (Bpi, (-2)); (BNc, (-1))], []).
Definition m803 : mono := ([(BW, 4); (BZ, (-4)); (Bg3, 2); (Bpi, (-2)); (BNc, (-1)); (BEv, 1)], []).
Definition m804 : mono := ([(BW, 3); (BZ, (-4)); (Bv, 1); (Bg1, 1); (Bg3, 2); (Bpi, (-2)); (BNc, (-1))], []).
Definition m805 : mono := ([(BW, 3); (BZ, (-4)); (Bv, 1); (Bg1, 1); (Bg3, 2); (Bpi, (-2)); (BNc, (-1)); (BEv, 1)], []).
Definition m806 : mono := ([(BW, 1); (BZ, (-2)); (Bv, 1); (Bg1, 1); (Bg3, 2); (Bpi, (-2)); (BNc, (-1))], []).
Definition m807 : mono := ([(BW, 1); (BZ, (-2)); (Bv, 1); (Bg1, 1); (Bg3, 2); (Bpi, (-2)); (BNc, (-1)); (BEv, 1)], []).
Definition m808 : mono := ([(BW, 2); (BZ, (-2)); (Bg3, 2); (Bpi, (-2)); (BNc, (-1))], []).
Definition m809 : mono := ([(BW, 2); (BZ, (-2)); (Bg3, 2); (Bpi, (-2)); (BNc, (-1)); (BEv, 1)], []).
Definition m810 : mono := ([(Bt, 6); (Bv, (-2)); (Bg3, 2); (Bpi, (-2)); (BNc, (-1))], [(s0, (-3)); (s1, (-3))]).
Definition m811 : mono := ([(BW, 2); (Bt, 4); (Bv, (-2)); (Bg3, 2); (Bpi, (-2)); (BNc, (-1))], [(s0, (-3)); (s1, (-3))]).
Definition m812 : mono := ([(BW, 4); (Bt, 2); (Bv, (-2)); (Bg3, 2); (Bpi, (-2)); (BNc, (-1))], [(s0, (-3)); (s1, (-3))]).
Definition m813 : mono := ([(BW, 6); (Bv, (-2)); (Bg3, 2); (Bpi, (-2)); (BNc, (-1))], [(s0, (-3)); (s1, (-3))]).
Definition m814 : mono := ([(BW, 1); (BZ, (-2)); (Bt, 8); (Bv, (-1)); (Bg1, 1); (Bpi, (-2))], [(s0, (-3)); (s1, (-3))]).
Definition m815 : mono := ([(BW, 3); (BZ, (-2)); (Bt, 6); (Bv, (-1)); (Bg1, 1); (Bpi, (-2))], [(s0, (-3)); (s1, (-3))]).
Definition m816 : mono := ([(BW, 5); (BZ, (-2)); (Bt, 4); (Bv, (-1)); (Bg1, 1); (Bpi, (-2))], [(s0, (-3)); (s1, (-3))]).
Definition m817 : mono := ([(BW, 7); (BZ, (-2)); (Bt, 2); (Bv, (-1)); (Bg1, 1); (Bpi, (-2))], [(s0, (-3)); (s1, (-3))]).
Definition m818 : mono := ([(BW, 9); (BZ, (-2)); (Bv, (-1)); (Bg1, 1); (Bpi, (-2))], [(s0, (-3)); (s1, (-3))]).
Definition m819 : mono := ([(Bt, 4); (Bv, (-2)); (Bpi, (-2))], [(s30, (-1))]).
Definition m820 : mono := ([(BW, 2); (Bt, 2); (Bv, (-2)); (Bpi, (-2))], [(s30, (-1))]).
Definition m821 : mono := ([(Bt, 4); (Bv, (-2)); (Bpi, (-2))], [(s31, (-1))]).
Definition m822 : mono := ([(BW, 2); (Bt, 2); (Bv, (-2)); (Bpi, (-2))], [(s31, (-1))]).
Definition m823 : mono := ([(Bt, 6); (Bg3, 2); (Bpi, (-2)); (BNc, (-1))], [(s0, (-3)); (s1, (-3))]).
Definition m824 : mono := ([(BW, 2); (Bt, 4); (Bg3, 2); (Bpi, (-2)); (BNc, (-1))], [(s0, (-3)); (s1, (-3))]).
Definition m825 : mono := ([(BW, 4); (Bt, 2); (Bg3, 2); (Bpi, (-2)); (BNc, (-1))], [(s0, (-3)); (s1, (-3))]).
Definition m826 : mono := ([(BW, 6); (Bg3, 2); (Bpi, (-2)); (BNc, (-1))], [(s0, (-3)); (s1, (-3))]).
Definition m827 : mono := ([(BW, 1); (Bt, 5); (Bg3, 2); (Bpi, (-2)); (Br2, (-1)); (BNc, (-1))], [(s0, (-3)); (s1, (-3))]).
Definition m828 : mono := ([(BW, 3); (Bt, 3); (Bg3, 2); (Bpi, (-2)); (Br2, (-1)); (BNc, (-1))], [(s0, (-3)); (s1, (-3))]).
Definition m829 : mono := ([(BW, 5); (Bt, 1); (Bg3, 2); (Bpi, (-2)); (Br2, (-1)); (BNc, (-1))], [(s0, (-3)); (s1, (-3))]).
Definition m830 : mono := ([(BW, 6); (BZ, (-4)); (Bt, (-1)); (Bv, (-1)); (Bg1, 1); (Bpi, (-2)); (Br2, (-1)); (BNc, 1)], []).
Definition m831 : mono := ([(BW, 4); (BZ, (-2)); (Bt, (-1)); (Bv, (-1)); (Bg1, 1); (Bpi, (-2)); (Br2, (-1)); (BNc, 1)], []).
Definition m832 : mono := ([(Bt, (-1)); (Bv, 1); (Bg3, 3); (Bpi, (-2)); (Br2, (-1)); (BNc, (-1))], []).
Definition m833 : mono := ([(BW, 4); (BZ, (-4)); (BH, (-2)); (Bt, 3); (Bv, (-1)); (Bpi, (-2)); (Br2, (-1)); (BNc, 1)], []).
Definition m834 : mono := ([(Bt, 5); (Bv, (-1)); (Bg3, 1); (Bpi, (-2)); (Br2, (-1)); (BNc, (-1))], [(s0, (-2)); (s1, (-2))]).
Definition m835 : mono := ([(BW, 2); (Bt, 3); (Bv, (-1)); (Bg3, 1); (Bpi, (-2)); (Br2, (-1)); (BNc, (-1))], [(s0, (-2)); (s1, (-2))]).
Definition m836 : mono := ([(BW, 4); (Bt, 1); (Bv, (-1)); (Bg3, 1); (Bpi, (-2)); (Br2, (-1)); (BNc, (-1))], [(s0, (-2)); (s1, (-2))]).
Definition m837 : mono := ([(Bt, 6); (Bv, (-2)); (Bpi, (-2))], [(s0, (-2)); (s1, (-2))]).
Definition m838 : mono := ([(BW, 2); (Bt, 4); (Bv, (-2)); (Bpi, (-2))], [(s0, (-2)); (s1, (-2))]).
Definition m839 : mono := ([(BW, 4); (Bt, 2); (Bv, (-2)); (Bpi, (-2))], [(s0, (-2)); (s1, (-2))]).
Definition m840 : mono := ([(Bt, 6); (Bv, (-4)); (Bpi, (-2))], [(s0, (-2)); (s1, (-2))]).
Definition m841 : mono := ([(BW, 2); (Bt, 4); (Bv, (-4)); (Bpi, (-2))], [(s0, (-2)); (s1, (-2))]).
Definition m842 : mono := ([(BW, 4); (Bt, 2); (Bv, (-4)); (Bpi, (-2))], [(s0, (-2)); (s1, (-2))]).
Definition m843 : mono := ([(Bg3, 2); (Bpi, (-2)); (BNc, (-1)); (Blt, 1)], []).
Definition m844 : mono := ([(BW, 4); (Bt, 4); (Bv, (-2)); (Bg3, 2); (Bpi, (-2)); (BNc, (-1)); (Blt, 1)], [(s0, (-4)); (s1, (-4))]).
Definition m845 : mono := ([(BW, 6); (Bt, 2); (Bv, (-2)); (Bg3, 2); (Bpi, (-2)); (BNc, (-1)); (Blt, 1)], [(s0, (-4)); (s1, (-4))]).
Definition m846 : mono := ([(BW, 8); (Bv, (-2)); (Bg3, 2); (Bpi, (-2)); (BNc, (-1)); (Blt, 1)], [(s0, (-4)); (s1, (-4))]).
Definition m847 : mono := ([(BW, 2); (Bt, 1); (Bv, (-1)); (Bg3, 1); (Bpi, (-2)); (Br2, (-1)); (Blt, 1)], [(s4, (-1))]).
Definition m848 : mono := ([(BW, 4); (Bt, 4); (Bg3, 2); (Bpi, (-2)); (BNc, (-1)); (Blt, 1)], [(s0, (-4)); (s1, (-4))]).
Definition m849 : mono := ([(BW, 6); (Bt, 2); (Bg3, 2); (Bpi, (-2)); (BNc, (-1)); (Blt, 1)], [(s0, (-4)); (s1, (-4))]).
Definition m850 : mono := ([(BW, 8); (Bg3, 2); (Bpi, (-2)); (BNc, (-1)); (Blt, 1)], [(s0, (-4)); (s1, (-4))]).
Definition m851 : mono := ([(BW, 4); (BZ, (-2)); (Bt, 1); (Bv, (-1)); (Bg1, 1); (Bpi, (-2)); (Br2, (-1)); (Blt, 1)], [(s0, (-1)); (s1, (-1))]).
Definition m852 : mono := ([(BW, 2); (Bt, 1); (Bv, (-1)); (Bg3, 1); (Bpi, (-2)); (Br2, (-1)); (Blt, 1)], [(s32, (-1))]).
Definition m853 : mono := ([(BW, 5); (Bt, 3); (Bg3, 2); (Bpi, (-2)); (Br2, (-1)); (BNc, (-1)); (Blt, 1)], [(s0, (-4)); (s1, (-4))]).
Definition m854 : mono := ([(BW, 7); (Bt, 1); (Bg3, 2); (Bpi, (-2)); (Br2, (-1)); (BNc, (-1)); (Blt, 1)], [(s0, (-4)); (s1, (-4))]).
Definition m855 : mono := ([(BW, 9); (BZ, (-2)); (Bt, 3); (Bv, (-2)); (Bpi, (-2)); (Br2, (-1)); (Blt, 1)], [(s0, (-4)); (s1, (-4))]).
Definition m856 : mono := ([(BW, 4); (BZ, (-4)); (BH, (-2)); (Bt, 3); (Bv, (-1)); (Bpi, (-2)); (Br2, (-1)); (BNc, 1); (Blt, 1)], []).
Definition m857 : mono := ([(BW, 5); (BZ, (-4)); (Bt, 1); (Bv, (-2)); (Bpi, (-2)); (Br2, (-1)); (BNc, 1); (Blt, 1)], []).
Definition m858 : mono := ([(BW, 2); (Bt, 5); (Bv, (-1)); (Bg3, 1); (Bpi, (-2)); (Br2, (-1)); (BNc, (-1)); (Blt, 1)], [(s0, (-3)); (s1, (-3))]).
Definition m859 : mono := ([(BW, 4); (Bt, 3); (Bv, (-1)); (Bg3, 1); (Bpi, (-2)); (Br2, (-1)); (BNc, (-1)); (Blt, 1)], [(s0, (-3)); (s1, (-3))]).
Definition m860 : mono := ([(BW, 2); (Bt, 6); (Bv, (-2)); (Bpi, (-2)); (Blt, 1)], [(s0, (-3)); (s1, (-3))]).
Definition m861 : mono := ([(BW, 2); (Bt, 6); (Bv, (-4)); (Bpi, (-2)); (Blt, 1)], [(s0, (-3)); (s1, (-3))]).
Definition m862 : mono := ([(Bt, 8); (Bv, (-2)); (Bg3, 2); (Bpi, (-2)); (BNc, (-1)); (BlW, 1)], [(s0, (-4)); (s1, (-4))]).
Definition m863 : mono := ([(BW, 2); (Bt, 6); (Bv, (-2)); (Bg3, 2); (Bpi, (-2)); (BNc, (-1)); (BlW, 1)], [(s0, (-4)); (s1, (-4))]).
Definition m864 : mono := ([(BW, 4); (Bt, 4); (Bv, (-2)); (Bg3, 2); (Bpi, (-2)); (BNc, (-1)); (BlW, 1)], [(s0, (-4)); (s1, (-4))]).
Definition m865 : mono := ([(Bt, 8); (Bg3, 2); (Bpi, (-2)); (BNc, (-1)); (BlW, 1)], [(s0, (-4)); (s1, (-4))]).
Definition m866 : mono := ([(BW, 2); (Bt, 6); (Bg3, 2); (Bpi, (-2)); (BNc, (-1)); (BlW, 1)], [(s0, (-4)); (s1, (-4))]).
Definition m867 : mono := ([(BW, 4); (Bt, 4); (Bg3, 2); (Bpi, (-2)); (BNc, (-1)); (BlW, 1)], [(s0, (-4)); (s1, (-4))]).
Definition m868 : mono := ([(BW, 2); (Bt, 1); (Bv, (-1)); (Bg3, 1); (Bpi, (-2)); (Br2, (-1)); (BlW, 1)], [(s32, (-1))]).
Definition m869 : mono := ([(BW, 5); (Bt, 3); (Bg3, 2); (Bpi, (-2)); (Br2, (-1)); (BNc, (-1)); (BlW, 1)], [(s0, (-4)); (s1, (-4))]).
Definition m870 : mono := ([(BW, 7); (Bt, 1); (Bg3, 2); (Bpi, (-2)); (Br2, (-1)); (BNc, (-1)); (BlW, 1)], [(s0, (-4)); (s1, (-4))]).
Definition m871 : mono := ([(BW, 9); (BZ, (-2)); (Bt, 3); (Bv, (-2)); (Bpi, (-2)); (Br2, (-1)); (BlW, 1)], [(s0, (-4)); (s1, (-4))]).
Definition m872 : mono := ([(BW, 2); (Bt, 5); (Bv, (-1)); (Bg3, 1); (Bpi, (-2)); (Br2, (-1)); (BNc, (-1)); (BlW, 1)], [(s0, (-3)); (s1, (-3))]).
Definition m873 : mono := ([(BW, 4); (Bt, 3); (Bv, (-1)); (Bg3, 1); (Bpi, (-2)); (Br2, (-1)); (BNc, (-1)); (BlW, 1)], [(s0, (-3)); (s1, (-3))]).
Definition m874 : mono := ([(BW, 2); (Bt, 6); (Bv, (-2)); (Bpi, (-2)); (BlW, 1)], [(s0, (-3)); (s1, (-3))]).
Definition m875 : mono := ([(BW, 2); (Bt, 6); (Bv, (-4)); (Bpi, (-2)); (BlW, 1)], [(s0, (-3)); (s1, (-3))]).
Definition m876 : mono := ([(Bv, (-2)); (Bg3, 2); (Bpi, (-2)); (BNc, (-1)); (BlZ, 1)], []).
Definition m877 : mono := ([(BW, 4); (BZ, (-4)); (Bv, (-2)); (Bg3, 2); (Bpi, (-2)); (BNc, (-1)); (BlZ, 1)], []).
Definition m878 : mono := ([(BW, 2); (BZ, (-2)); (Bv, (-2)); (Bg3, 2); (Bpi, (-2)); (BNc, (-1)); (BlZ, 1)], []).
Definition m879 : mono := ([(Bg3, 2); (Bpi, (-2)); (BNc, (-1)); (BlZ, 1)], []).
Definition m880 : mono := ([(BW, 4); (BZ, (-4)); (Bg3, 2); (Bpi, (-2)); (BNc, (-1)); (BlZ, 1)], []).
Definition m881 : mono := ([(BW, 3); (BZ, (-4)); (Bv, 1); (Bg1, 1); (Bg3, 2); (Bpi, (-2)); (BNc, (-1)); (BlZ, 1)], []).
Definition m882 : mono := ([(BW, 1); (BZ, (-2)); (Bv, 1); (Bg1, 1); (Bg3, 2); (Bpi, (-2)); (BNc, (-1)); (BlZ, 1)], []).
Definition m883 : mono := ([(BW, 2); (BZ, (-2)); (Bg3, 2); (Bpi, (-2)); (BNc, (-1)); (BlZ, 1)], []).
Definition m884 : mono := ([(BW, 3); (Bt, (-1)); (Bv, (-2)); (Bpi, (-2)); (Br2, (-1)); (BNc, 1)], []).
Definition m885 : mono := ([(BW, 7); (BZ, (-4)); (Bt, (-1)); (Bv, (-2)); (Bpi, (-2)); (Br2, (-1)); (BNc, 1)], []).
Definition m886 : mono := ([(Bt, 4); (Bv, (-4)); (Bpi, (-2))], [(s33, (-1))]).
Definition m887 : mono := ([(BW, 2); (Bt, 2); (Bv, (-4)); (Bpi, (-2))], [(s33, (-1))]).
Definition m888 : mono := ([(BW, 2); (Bt, 4); (Bv, (-4)); (Bpi, (-2)); (Blt, 1)], [(s0, (-2)); (s1, (-2))]).
Definition m889 : mono := ([(BW, 4); (Bt, 2); (Bv, (-4)); (Bpi, (-2)); (Blt, 1)], [(s0, (-2)); (s1, (-2))]).
Definition m890 : mono := ([(BW, 3); (Bt, 3); (Bv, (-2)); (Bpi, (-2)); (Br2, (-1)); (Blt, 1)], [(s0, (-2)); (s1, (-2))]).
Definition m891 : mono := ([(BW, 2); (Bt, 4); (Bv, (-4)); (Bpi, (-2)); (BlW, 1)], [(s0, (-2)); (s1, (-2))]).
Definition m892 : mono := ([(BW, 4); (Bt, 2); (Bv, (-4)); (Bpi, (-2)); (BlW, 1)], [(s0, (-2)); (s1, (-2))]).
Definition m893 : mono := ([(BW, 3); (Bt, 3); (Bv, (-2)); (Bpi, (-2)); (Br2, (-1)); (BlW, 1)], [(s0, (-2)); (s1, (-2))]).
Definition m894 : mono := ([(BW, 4); (BZ, (-4)); (Bt, 1); (Bv, (-1)); (Bg1, 1); (Bpi, (-2)); (Br2, 1); (BNc, 1); (Blt, 1)], []).
Definition m895 : mono := ([(BW, 1); (Bv, (-1)); (Bg1, 1); (Bpi, (-2)); (Bi, 1)], []).
Definition m896 : mono := ([(BW, 2); (Bt, (-1)); (Bv, (-1)); (Bg1, 1); (Bpi, (-2)); (Br2, (-1))], []).
Definition m897 : mono := ([(BH, 4); (Bv, (-2)); (Bpi, (-2)); (BlH, 1)], [(s34, (-1))]).
Definition m898 : mono := ([(BW, 2); (BH, 2); (Bv, (-2)); (Bpi, (-2)); (BlH, 1)], [(s34, (-1))]).
Definition m899 : mono := ([(Bt, 1); (Bv, (-1)); (Bg3, 1); (Bpi, (-2)); (Br2, (-1)); (Bcf, 1); (Blt, 1)], []).
Definition m900 : mono := ([(BW, 4); (BH, 2); (Bv, (-2)); (Bpi, (-2)); (BlW, 1)], [(s35, (-1))]).
Definition m901 : mono := ([(BW, 6); (Bv, (-2)); (Bpi, (-2)); (BlW, 1)], [(s35, (-1))]).
Definition m902 : mono := ([(BW, 1); (Bv, (-1)); (Bg1, 1); (Bpi, (-2)); (Bi, 1); (BlZ, 1)], []).
Definition m903 : mono := ([(BW, 4); (BZ, 2); (Bt, (-1)); (Bv, (-1)); (Bg1, 1); (Bpi, (-2)); (Br2, (-1)); (BlZ, 1)], [(s18, (-1)); (s19, (-1)); (s21, (-1)); (s24, (-1))]).
Definition m904 : mono := ([(BW, 4); (Bv, (-2)); (Bpi, (-2)); (BlZ, 1)], [(s20, (-1)); (s21, (-1))]).
Definition m905 : mono := ([(BW, 2); (BZ, 2); (Bv, (-2)); (Bpi, (-2)); (BlZ, 1)], [(s20, (-1)); (s21, (-1))]).
Definition m906 : mono := ([(BZ, 4); (Bv, (-2)); (Bpi, (-2)); (BlZ, 1)], [(s20, (-1)); (s21, (-1))]).
Definition m907 : mono := ([(BH, 4); (Bv, (-4)); (Bpi, (-2)); (BlH, 1)], [(s36, (-1))]).
Definition m908 : mono := ([(BZ, 2); (BH, 2); (Bv, (-4)); (Bpi, (-2)); (BlH, 1)], [(s36, (-1))]).
Definition m909 : mono := ([(BH, 4); (Bv, (-2)); (Bpi, (-2)); (BlH, 1)], [(s37, (-1))]).
Definition m910 : mono := ([(BZ, 2); (BH, 2); (Bv, (-2)); (Bpi, (-2)); (BlH, 1)], [(s37, (-1))]).
Definition m911 : mono := ([(BH, 2); (Bv, (-2)); (Bpi, (-2)); (BlH, 1)], []).
Definition m912 : mono := ([(BZ, 4); (BH, 2); (Bv, (-4)); (Bpi, (-2)); (BlZ, 1)], [(s38, (-1))]).
Definition m913 : mono := ([(BZ, 6); (Bv, (-4)); (Bpi, (-2)); (BlZ, 1)], [(s38, (-1))]).
Definition m914 : mono := ([(BZ, 4); (BH, 2); (Bv, (-2)); (Bpi, (-2)); (BlZ, 1)], [(s39, (-1))]).
Definition m915 : mono := ([(BZ, 6); (Bv, (-2)); (Bpi, (-2)); (BlZ, 1)], [(s39, (-1))]).
Definition m916 : mono := ([(BW, 2); (BZ, 2); (Bv, (-2)); (Bpi, (-2)); (BlZ, 1)], [(s36, (-1))]).
Definition m917 : mono := ([(BW, 2); (BZ, 4); (BH, (-2)); (Bv, (-2)); (Bpi, (-2)); (BlZ, 1)], [(s36, (-1))]).
Definition m918 : mono := ([(Bt, 4); (Bv, (-2)); (Bpi, (-2)); (BNc, (-1)); (BEv, 1)], [(s0, (-1)); (s1, (-1))]).
Definition m919 : mono := ([(BW, 2); (Bt, 2); (Bv, (-2)); (Bpi, (-2)); (BNc, (-1)); (BEv, 1)], [(s0, (-1)); (s1, (-1))]).
Definition m920 : mono := ([(BW, 7); (Bt, 3); (Bv, (-2)); (Bpi, (-2)); (Br2, 1); (Blt, 1)], [(s0, (-4)); (s1, (-4))]).
Definition m921 : mono := ([(BW, 7); (Bt, 3); (Bv, (-2)); (Bpi, (-2)); (Br2, 1); (BlW, 1)], [(s0, (-4)); (s1, (-4))]).
Definition m922 : mono := ([(BW, 2); (BZ, 2); (Bv, (-2)); (Bpi, (-2)); (BlW, 1)], [(s40, (-1))]).
Definition m923 : mono := ([(Bt, 4); (Bv, (-2)); (Bpi, (-2)); (BEv, 1)], [(s0, (-1)); (s1, (-1))]).
Definition m924 : mono := ([(BW, 2); (Bt, 2); (Bv, (-2)); (Bpi, (-2)); (BEv, 1)], [(s0, (-1)); (s1, (-1))]).
Definition m925 : mono := ([(BW, 6); (Bv, (-2)); (Bpi, (-2)); (BlZ, 1)], [(s41, (-1))]).
Definition m926 : mono := ([(BW, 4); (BZ, 2); (Bv, (-2)); (Bpi, (-2)); (BlZ, 1)], [(s41, (-1))]).
Definition m927 : mono := ([(BW, 2); (BZ, 4); (Bv, (-2)); (Bpi, (-2)); (BlZ, 1)], [(s41, (-1))]).
Definition m928 : mono := ([(BZ, 6); (Bv, (-2)); (Bpi, (-2)); (BlZ, 1)], [(s41, (-1))]).
Definition m929 : mono := ([(BW, 2); (Bv, (-2)); (Bpi, (-2)); (BNc, (-2))], []).
Definition m930 : mono := ([(BW, 4); (BZ, (-2)); (Bv, (-2)); (Bpi, (-2)); (BNc, (-2))], []).
Definition m931 : mono := ([(BZ, 2); (Bv, (-2)); (Bpi, (-2)); (BNc, (-2))], []).
Definition m932 : mono := ([(BW, 2); (Bt, 2); (Bv, (-2)); (Bpi, (-2)); (Blt, 1)], [(s28, (-1))]).
Definition m933 : mono := ([(BW, 2); (Bt, 2); (Bv, (-2)); (Bpi, (-2)); (Blt, 1)], [(s0, (-1)); (s1, (-1))]).
Definition m934 : mono := ([(BW, 2); (Bt, 2); (Bv, (-2)); (Bpi, (-2)); (BNc, (-2)); (Blt, 1)], [(s0, (-1)); (s1, (-1))]).
Definition m935 : mono := ([(BW, 2); (Bv, (-2)); (Bpi, (-2)); (BNc, (-2)); (BlW, 1)], []).
Definition m936 : mono := ([(BW, 2); (Bt, 2); (Bv, (-2)); (Bpi, (-2)); (BlW, 1)], [(s28, (-1))]).
Definition m937 : mono := ([(BW, 2); (Bt, 2); (Bv, (-2)); (Bpi, (-2)); (BlW, 1)], [(s0, (-1)); (s1, (-1))]).
Definition m938 : mono := ([(BW, 2); (Bt, 2); (Bv, (-2)); (Bpi, (-2)); (BNc, (-2)); (BlW, 1)], [(s0, (-1)); (s1, (-1))]).
Definition m939 : mono := ([(BW, 2); (Bv, (-2)); (Bpi, (-2)); (BNc, (-2)); (BlZ, 1)], []).
Definition m940 : mono := ([(BW, 4); (BZ, (-2)); (Bv, (-2)); (Bpi, (-2)); (BNc, (-2)); (BlZ, 1)], []).
Definition m941 : mono := ([(BZ, 2); (Bv, (-2)); (Bpi, (-2)); (BNc, (-2)); (BlZ, 1)], []).
Definition m942 : mono := ([(BW, 2); (Bt, 2); (Bv, (-2)); (Bpi, (-2)); (BlW, 1)], [(s3, (-1))]).
Definition m943 : mono := ([(BH, (-2)); (Bt, 3); (Bv, (-1)); (Bpi, (-2)); (Br2, 1); (BNc, 1)], []).
Definition m944 : mono := ([(BW, 2); (BZ, (-2)); (BH, (-2)); (Bt, 3); (Bv, (-1)); (Bpi, (-2)); (Br2, 1); (BNc, 1)], []).
Definition m945 : mono := ([(BH, (-2)); (Bt, 3); (Bv, (-1)); (Bpi, (-2)); (Br2, 1); (BNc, 1); (Blt, 1)], []).
Definition m946 : mono := ([(BW, 2); (BZ, (-2)); (BH, (-2)); (Bt, 3); (Bv, (-1)); (Bpi, (-2)); (Br2, 1); (BNc, 1); (Blt, 1)], []).
Definition m947 : mono := ([(BW, 1); (Bt, 1); (Bv, (-2)); (Bpi, (-2)); (Br2, 1); (BNc, 1); (Blt, 1)], []).
Definition m948 : mono := ([(BW, 3); (BZ, (-2)); (Bt, 1); (Bv, (-2)); (Bpi, (-2)); (Br2, 1); (BNc, 1); (Blt, 1)], []).
Definition m949 : mono := ([(BW, 5); (BZ, (-3)); (Bv, (-1)); (Bpi, (-2)); (Br2, (-1))], []).
Definition m950 : mono := ([(BW, 1); (BZ, (-1)); (BH, 2); (Bv, (-1)); (Bpi, (-2)); (Br2, (-1))], []).
Definition m951 : mono := ([(BW, 3); (BZ, (-1)); (Bv, (-1)); (Bpi, (-2)); (Br2, (-1))], []).
Definition m952 : mono := ([(BW, 5); (BZ, (-1)); (BH, (-2)); (Bv, (-1)); (Bpi, (-2)); (Br2, (-1))], []).
Definition m953 : mono := ([(BW, 1); (BZ, 1); (Bv, (-1)); (Bpi, (-2)); (Br2, (-1))], []).
Definition m954 : mono := ([(BW, 1); (BZ, 3); (BH, (-2)); (Bv, (-1)); (Bpi, (-2)); (Br2, (-1))], []).
Definition m955 : mono := ([(BW, 1); (BZ, (-1)); (BH, (-2)); (Bt, 4); (Bv, (-1)); (Bpi, (-2)); (Br2, (-1)); (BNc, 1)], []).
Definition m956 : mono := ([(BW, 4); (BZ, (-3)); (Bg1, 1); (Bpi, (-2)); (Br2, (-1))], []).
Definition m957 : mono := ([(BZ, (-1)); (BH, 2); (Bg1, 1); (Bpi, (-2)); (Br2, (-1))], []).
Definition m958 : mono := ([(BW, 2); (BZ, (-1)); (Bg1, 1); (Bpi, (-2)); (Br2, (-1))], []).
Definition m959 : mono := ([(BW, 4); (BZ, (-1)); (BH, (-2)); (Bg1, 1); (Bpi, (-2)); (Br2, (-1))], []).
Definition m960 : mono := ([(BZ, 1); (Bg1, 1); (Bpi, (-2)); (Br2, (-1))], []).
Definition m961 : mono := ([(BZ, 3); (BH, (-2)); (Bg1, 1); (Bpi, (-2)); (Br2, (-1))], []).
Definition m962 : mono := ([(BZ, (-1)); (BH, (-2)); (Bt, 4); (Bg1, 1); (Bpi, (-2)); (Br2, (-1)); (BNc, 1)], []).
Definition m963 : mono := ([(BW, 5); (BZ, (-5)); (Bv, (-2)); (Bg1, 1); (Bpi, (-2))], []).
Definition m964 : mono := ([(BW, 3); (BZ, (-3)); (Bv, (-2)); (Bg1, 1); (Bpi, (-2))], []).
Definition m965 : mono := ([(BW, 1); (BZ, (-1)); (Bv, (-2)); (Bg1, 1); (Bpi, (-2))], []).
Definition m966 : mono := ([(BW, 1); (BZ, (-1)); (Bg1, 1); (Bpi, (-2))], []).
Definition m967 : mono := ([(BW, 1); (BZ, (-1)); (Bg1, 1); (Bpi, (-2)); (Bi, 1)], []).
Definition m968 : mono := ([(BW, 7); (BZ, (-5)); (Bg1, 1); (Bpi, (-2))], [(s29, (-1))]).
Definition m969 : mono := ([(BW, 5); (BZ, (-3)); (Bg1, 1); (Bpi, (-2))], [(s29, (-1))]).
Definition m970 : mono := ([(BW, 3); (BZ, (-1)); (Bg1, 1); (Bpi, (-2))], [(s29, (-1))]).
Definition m971 : mono := ([(BW, 1); (BZ, 1); (Bg1, 1); (Bpi, (-2))], [(s29, (-1))]).
Definition m972 : mono := ([(BW, 5); (BZ, (-5)); (Bv, 2); (Bg1, 3); (Bpi, (-2))], [(s29, (-1))]).
Definition m973 : mono := ([(BW, 5); (BZ, (-5)); (Bv, 2); (Bg1, 1); (Bg2, 2); (Bpi, (-2))], [(s29, (-1))]).
Definition m974 : mono := ([(BW, 3); (BZ, (-3)); (Bv, 2); (Bg1, 3); (Bpi, (-2))], [(s29, (-1))]).
Definition m975 : mono := ([(BW, 3); (BZ, (-3)); (Bv, 2); (Bg1, 1); (Bg2, 2); (Bpi, (-2))], [(s29, (-1))]).
Definition m976 : mono := ([(BW, 1); (BZ, (-1)); (Bv, 2); (Bg1, 3); (Bpi, (-2))], [(s29, (-1))]).
Definition m977 : mono := ([(BW, 1); (BZ, (-1)); (Bv, 2); (Bg1, 1); (Bg2, 2); (Bpi, (-2))], [(s29, (-1))]).
Definition m978 : mono := ([(BW, 5); (BZ, (-5)); (Bg2, 1); (Bpi, (-2))], []).
Definition m979 : mono := ([(BW, 3); (BZ, (-3)); (Bg2, 1); (Bpi, (-2))], []).
Definition m980 : mono := ([(BW, 1); (BZ, (-1)); (Bg2, 1); (Bpi, (-2))], []).
Definition m981 : mono := ([(BW, 6); (BZ, (-5)); (Bv, (-1)); (Bpi, (-2))], []).
Definition m982 : mono := ([(BW, 4); (BZ, (-3)); (Bv, (-1)); (Bpi, (-2))], []).
Definition m983 : mono := ([(BW, 2); (BZ, (-1)); (Bv, (-1)); (Bpi, (-2))], []).
Definition m984 : mono := ([(BZ, 1); (Bv, (-1)); (Bpi, (-2))], []).
Definition m985 : mono := ([(BZ, 1); (Bv, (-1)); (Bpi, (-2)); (Bi, 1)], []).
Definition m986 : mono := ([(BW, 2); (BZ, (-1)); (Bv, (-1)); (Bg1, 1); (Bpi, (-2))], []).
Definition m987 : mono := ([(BW, 2); (BZ, (-1)); (Bv, (-1)); (Bg1, 1); (Bpi, (-2)); (Bi, 1)], []).
Definition m988 : mono := ([(BW, 3); (BZ, (-3)); (Bg1, 1); (Bpi, (-2))], []).
Definition m989 : mono := ([(BW, 1); (BZ, (-1)); (BH, 2); (Bv, (-1)); (Bpi, (-2)); (Br2, (-1)); (BlH, 1)], []).
Definition m990 : mono := ([(BZ, (-1)); (BH, 2); (Bg1, 1); (Bpi, (-2)); (Br2, (-1)); (BlH, 1)], []).
Definition m991 : mono := ([(BW, 1); (BZ, (-1)); (BH, 2); (Bg1, 1); (Bpi, (-2)); (BlH, 1)], [(s36, (-1))]).
Definition m992 : mono := ([(BW, 3); (BZ, (-1)); (Bg1, 1); (Bpi, (-2)); (BlH, 1)], [(s36, (-1))]).
Definition m993 : mono := ([(BW, 1); (BZ, (-1)); (BH, 2); (Bg1, 1); (Bpi, (-2)); (Bi, 1); (BlH, 1)], [(s5, (-1)); (s6, (-1))]).
Definition m994 : mono := ([(BW, 3); (BZ, (-1)); (Bg1, 1); (Bpi, (-2)); (Bi, 1); (BlH, 1)], [(s5, (-1)); (s6, (-1))]).
Definition m995 : mono := ([(BW, 1); (BZ, (-1)); (BH, 2); (Bg1, 1); (Bpi, (-2)); (BlH, 1)], [(s6, (-1)); (s42, (-1))]).
Definition m996 : mono := ([(BW, 3); (BZ, (-1)); (Bg1, 1); (Bpi, (-2)); (BlH, 1)], [(s6, (-1)); (s42, (-1))]).
Definition m997 : mono := ([(BW, 1); (BZ, 1); (Bg1, 1); (Bpi, (-2)); (BlH, 1)], [(s6, (-1)); (s42, (-1))]).
Definition m998 : mono := ([(BW, 2); (BZ, (-1)); (BH, 2); (Bv, (-1)); (Bpi, (-2)); (BlH, 1)], [(s6, (-1)); (s42, (-1))]).
Definition m999 : mono := ([(BW, 4); (BZ, (-1)); (Bv, (-1)); (Bpi, (-2)); (BlH, 1)], [(s6, (-1)); (s42, (-1))]).
Definition m1000 : mono := ([(BZ, 1); (BH, 2); (Bv, (-1)); (Bpi, (-2)); (BlH, 1)], [(s6, (-1)); (s42, (-1))]).
Definition m1001 : mono := ([(BW, 2); (BZ, 1); (Bv, (-1)); (Bpi, (-2)); (BlH, 1)], [(s6, (-1)); (s42, (-1))]).
Definition m1002 : mono := ([(BW, 1); (BZ, (-1)); (BH, 2); (Bg1, 1); (Bpi, (-2)); (Bi, 1); (BlH, 1)], [(s6, (-1)); (s42, (-1))]).
Definition m1003 : mono := ([(BW, 3); (BZ, (-1)); (Bg1, 1); (Bpi, (-2)); (Bi, 1); (BlH, 1)], [(s6, (-1)); (s42, (-1))]).
Definition m1004 : mono := ([(BW, 1); (BZ, 1); (Bg1, 1); (Bpi, (-2)); (Bi, 1); (BlH, 1)], [(s6, (-1)); (s42, (-1))]).
Definition m1005 : mono := ([(BW, 2); (BZ, (-1)); (BH, 2); (Bv, (-1)); (Bpi, (-2)); (Bi, 1); (BlH, 1)], [(s6, (-1)); (s42, (-1))]).
Definition m1006 : mono := ([(BW, 4); (BZ, (-1)); (Bv, (-1)); (Bpi, (-2)); (Bi, 1); (BlH, 1)], [(s6, (-1)); (s42, (-1))]).
Definition m1007 : mono := ([(BZ, 1); (BH, 2); (Bv, (-1)); (Bpi, (-2)); (Bi, 1); (BlH, 1)], [(s6, (-1)); (s42, (-1))]).
Definition m1008 : mono := ([(BW, 2); (BZ, 1); (Bv, (-1)); (Bpi, (-2)); (Bi, 1); (BlH, 1)], [(s6, (-1)); (s42, (-1))]).
Definition m1009 : mono := ([(BW, 1); (BZ, (-1)); (BH, (-2)); (Bt, 4); (Bv, (-1)); (Bpi, (-2)); (Br2, (-1)); (BNc, 1); (Blt, 1)], []).
Definition m1010 : mono := ([(BW, 4); (BZ, (-3)); (Bg1, 1); (Bpi, (-2)); (Br2, (-1)); (BNc, 1); (Blt, 1)], []).
Definition m1011 : mono := ([(BZ, (-1)); (BH, (-2)); (Bt, 4); (Bg1, 1); (Bpi, (-2)); (Br2, (-1)); (BNc, 1); (Blt, 1)], []).
Definition m1012 : mono := ([(BW, 2); (BZ, (-1)); (Bg1, 1); (Bpi, (-2)); (Br2, (-1)); (BNc, 1); (Blt, 1)], []).
Definition m1013 : mono := ([(BW, 1); (BZ, (-1)); (Bt, 1); (Bg1, 1); (Bpi, (-2)); (BNc, 1); (Blt, 1)], []).
Definition m1014 : mono := ([(BW, 5); (BZ, (-3)); (Bv, (-1)); (Bpi, (-2)); (Br2, (-1)); (BlW, 1)], []).
Definition m1015 : mono := ([(BW, 3); (BZ, (-1)); (Bv, (-1)); (Bpi, (-2)); (Br2, (-1)); (BlW, 1)], []).
Definition m1016 : mono := ([(BW, 5); (BZ, (-1)); (BH, (-2)); (Bv, (-1)); (Bpi, (-2)); (Br2, (-1)); (BlW, 1)], []).
Definition m1017 : mono := ([(BW, 4); (BZ, (-3)); (Bg1, 1); (Bpi, (-2)); (Br2, (-1)); (BlW, 1)], []).
Definition m1018 : mono := ([(BW, 2); (BZ, (-1)); (Bg1, 1); (Bpi, (-2)); (Br2, (-1)); (BlW, 1)], []).
Definition m1019 : mono := ([(BW, 4); (BZ, (-1)); (BH, (-2)); (Bg1, 1); (Bpi, (-2)); (Br2, (-1)); (BlW, 1)], []).
Definition m1020 : mono := ([(BW, 2); (BZ, (-1)); (Bv, (-1)); (Bpi, (-2)); (BlW, 1)], []).
Definition m1021 : mono := ([(BW, 2); (BZ, (-1)); (Bv, (-1)); (Bpi, (-2)); (Bi, 1); (BlW, 1)], []).
Definition m1022 : mono := ([(BW, 5); (BZ, (-3)); (Bv, (-1)); (Bpi, (-2)); (Br2, (-1)); (BlZ, 1)], []).
Definition m1023 : mono := ([(BW, 3); (BZ, (-1)); (Bv, (-1)); (Bpi, (-2)); (Br2, (-1)); (BlZ, 1)], []).
Definition m1024 : mono := ([(BW, 1); (BZ, 1); (Bv, (-1)); (Bpi, (-2)); (Br2, (-1)); (BlZ, 1)], []).
Definition m1025 : mono := ([(BW, 1); (BZ, 3); (BH, (-2)); (Bv, (-1)); (Bpi, (-2)); (Br2, (-1)); (BlZ, 1)], []).
Definition m1026 : mono := ([(BW, 4); (BZ, (-3)); (Bg1, 1); (Bpi, (-2)); (Br2, (-1)); (BlZ, 1)], []).
Definition m1027 : mono := ([(BW, 2); (BZ, (-1)); (Bg1, 1); (Bpi, (-2)); (Br2, (-1)); (BlZ, 1)], []).
Definition m1028 : mono := ([(BZ, 1); (Bg1, 1); (Bpi, (-2)); (Br2, (-1)); (BlZ, 1)], []).
Definition m1029 : mono := ([(BZ, 3); (BH, (-2)); (Bg1, 1); (Bpi, (-2)); (Br2, (-1)); (BlZ, 1)], []).
Definition m1030 : mono := ([(BW, 3); (Bg1, 1); (Bpi, (-2)); (BlZ, 1)], [(s43, (-1))]).
Definition m1031 : mono := ([(BW, 1); (BZ, 2); (Bg1, 1); (Bpi, (-2)); (BlZ, 1)], [(s43, (-1))]).
Definition m1032 : mono := ([(BW, 3); (BZ, (-1)); (Bg1, 1); (Bpi, (-2)); (Bi, 1); (BlZ, 1)], [(s6, (-1)); (s42, (-1))]).
Definition m1033 : mono := ([(BW, 1); (BZ, 1); (Bg1, 1); (Bpi, (-2)); (Bi, 1); (BlZ, 1)], [(s6, (-1)); (s42, (-1))]).
Definition m1034 : mono := ([(BW, 3); (Bg1, 1); (Bpi, (-2)); (BlZ, 1)], [(s44, (-1))]).
Definition m1035 : mono := ([(BW, 1); (BZ, 2); (Bg1, 1); (Bpi, (-2)); (BlZ, 1)], [(s44, (-1))]).
Definition m1036 : mono := ([(BW, 4); (Bpi, (-2)); (BlZ, 1)], [(s45, (-1))]).
Definition m1037 : mono := ([(BW, 2); (BZ, 2); (Bpi, (-2)); (BlZ, 1)], [(s45, (-1))]).
Definition m1038 : mono := ([(BZ, 4); (Bpi, (-2)); (BlZ, 1)], [(s45, (-1))]).
Definition m1039 : mono := ([(BW, 3); (BZ, (-1)); (Bg1, 1); (Bpi, (-2)); (Bi, 1); (BlZ, 1)], [(s36, (-1))]).
Definition m1040 : mono := ([(BW, 1); (BZ, 1); (Bg1, 1); (Bpi, (-2)); (Bi, 1); (BlZ, 1)], [(s36, (-1))]).
Definition m1041 : mono := ([(BW, 4); (BZ, (-1)); (Bv, (-1)); (Bpi, (-2)); (Bi, 1); (BlZ, 1)], [(s6, (-1)); (s42, (-1))]).
Definition m1042 : mono := ([(BW, 2); (BZ, 1); (Bv, (-1)); (Bpi, (-2)); (Bi, 1); (BlZ, 1)], [(s6, (-1)); (s42, (-1))]).
Definition m1043 : mono := ([(BZ, 3); (Bv, (-1)); (Bpi, (-2)); (Bi, 1); (BlZ, 1)], [(s6, (-1)); (s42, (-1))]).
Definition m1044 : mono := ([(BW, 5); (BZ, (-3)); (Bv, (-1)); (Bpi, (-2)); (Br2, 1); (BNc, 1); (Blt, 1)], []).
Definition m1045 : mono := ([(BW, 3); (BZ, (-1)); (Bv, (-1)); (Bpi, (-2)); (Br2, 1); (BNc, 1); (Blt, 1)], []).
Definition m1046 : mono := ([(Bv, 1); (Bg1, 1); (Bg3, 1); (Bpi, (-2)); (Br2, (-1))], []).
Definition m1047 : mono := ([(BW, 2); (BZ, (-2)); (Bv, 1); (Bg1, 1); (Bg3, 1); (Bpi, (-2)); (Br2, (-1))], []).
Definition m1048 : mono := ([(BH, 2); (Bv, (-1)); (Bpi, (-2)); (Br2, (-1))], []).
Definition m1049 : mono := ([(BW, 2); (Bv, (-1)); (Bpi, (-2)); (Br2, (-1))], []).
Definition m1050 : mono := ([(BW, 4); (BH, (-2)); (Bv, (-1)); (Bpi, (-2)); (Br2, (-1))], []).
Definition m1051 : mono := ([(BW, 4); (BZ, (-2)); (Bv, (-1)); (Bpi, (-2)); (Br2, (-1))], []).
Definition m1052 : mono := ([(BZ, 2); (Bv, (-1)); (Bpi, (-2)); (Br2, (-1))], []).
Definition m1053 : mono := ([(BZ, 4); (BH, (-2)); (Bv, (-1)); (Bpi, (-2)); (Br2, (-1))], []).
Definition m1054 : mono := ([(BH, (-2)); (Bt, 4); (Bv, (-1)); (Bpi, (-2)); (Br2, (-1)); (BNc, 1)], []).
Definition m1055 : mono := ([(BW, 1); (Bg3, 1); (Bpi, (-2)); (Br2, (-1))], []).
Definition m1056 : mono := ([(BW, 3); (BZ, (-2)); (Bg3, 1); (Bpi, (-2)); (Br2, (-1))], []).
Definition m1057 : mono := ([(Bv, (-2)); (Bg3, 1); (Bpi, (-2))], []).
Definition m1058 : mono := ([(BW, 4); (BZ, (-4)); (Bv, (-2)); (Bg3, 1); (Bpi, (-2))], []).
Definition m1059 : mono := ([(BW, 2); (BZ, (-2)); (Bv, (-2)); (Bg3, 1); (Bpi, (-2))], []).
Definition m1060 : mono := ([(Bg3, 1); (Bpi, (-2))], []).
Definition m1061 : mono := ([(BW, 4); (BZ, (-4)); (Bg3, 1); (Bpi, (-2))], []).
Definition m1062 : mono := ([(Bg3, 1); (Bpi, (-2)); (Bi, 1)], []).
Definition m1063 : mono := ([(BW, 3); (BZ, (-4)); (Bv, 1); (Bg1, 1); (Bg3, 1); (Bpi, (-2))], []).
Definition m1064 : mono := ([(BW, 1); (BZ, (-2)); (Bv, 1); (Bg1, 1); (Bg3, 1); (Bpi, (-2))], []).
Definition m1065 : mono := ([(BW, 2); (BZ, (-2)); (Bg3, 1); (Bpi, (-2))], []).
Definition m1066 : mono := ([(Bt, 1); (Bg3, 1); (Bpi, (-2))], []).
Definition m1067 : mono := ([(Bt, 1); (Bg3, 1); (Bpi, (-2)); (BNc, (-1))], []).
Definition m1068 : mono := ([(BH, 2); (Bv, (-1)); (Bpi, (-2)); (Br2, (-1)); (BlH, 1)], []).
Definition m1069 : mono := ([(Bg3, 1); (Bpi, (-2)); (BlH, 1)], []).
Definition m1070 : mono := ([(Bg3, 1); (Bpi, (-2)); (Bi, 1); (BlH, 1)], []).
Definition m1071 : mono := ([(BH, (-2)); (Bt, 4); (Bv, (-1)); (Bpi, (-2)); (Br2, (-1)); (BNc, 1); (Blt, 1)], []).
Definition m1072 : mono := ([(Bv, 1); (Bg3, 2); (Bpi, (-2)); (Br2, (-1)); (Blt, 1)], []).
Definition m1073 : mono := ([(BW, 4); (BH, (-2)); (Bv, (-1)); (Bpi, (-2)); (Br2, (-1)); (BlW, 1)], []).
Definition m1074 : mono := ([(BW, 1); (Bg3, 1); (Bpi, (-2)); (Br2, (-1)); (BlW, 1)], []).
Definition m1075 : mono := ([(Bv, 1); (Bg1, 1); (Bg3, 1); (Bpi, (-2)); (Br2, (-1)); (BlZ, 1)], []).
Definition m1076 : mono := ([(BW, 2); (BZ, (-2)); (Bv, 1); (Bg1, 1); (Bg3, 1); (Bpi, (-2)); (Br2, (-1)); (BlZ, 1)], []).
Definition m1077 : mono := ([(BW, 2); (Bv, (-1)); (Bpi, (-2)); (Br2, (-1)); (BlZ, 1)], []).
Definition m1078 : mono := ([(BW, 4); (BZ, (-2)); (Bv, (-1)); (Bpi, (-2)); (Br2, (-1)); (BlZ, 1)], []).
Definition m1079 : mono := ([(BZ, 2); (Bv, (-1)); (Bpi, (-2)); (Br2, (-1)); (BlZ, 1)], []).
Definition m1080 : mono := ([(BZ, 4); (BH, (-2)); (Bv, (-1)); (Bpi, (-2)); (Br2, (-1)); (BlZ, 1)], []).
Definition m1081 : mono := ([(BW, 1); (Bg3, 1); (Bpi, (-2)); (Br2, (-1)); (BlZ, 1)], []).
Definition m1082 : mono := ([(BW, 3); (BZ, (-2)); (Bg3, 1); (Bpi, (-2)); (Br2, (-1)); (BlZ, 1)], []).
Definition m1083 : mono := ([(BW, 2); (BZ, (-1)); (Bv, (-1)); (Bpi, (-2)); (Bi, 1)], []).
Definition m1084 : mono := ([(BW, 1); (BZ, (-1)); (Bt, 1); (Bg1, 1); (Bpi, (-2))], []).
Definition m1085 : mono := ([(BW, 1); (BZ, (-1)); (Bt, 1); (Bg1, 1); (Bpi, (-2)); (Bcf, 1)], []).
Definition m1086 : mono := ([(BW, 1); (BH, 2); (Bg1, 1); (Bpi, (-2)); (BlH, 1)], [(s46, (-1))]).
Definition m1087 : mono := ([(BW, 3); (Bg1, 1); (Bpi, (-2)); (BlH, 1)], [(s46, (-1))]).
Definition m1088 : mono := ([(BW, 1); (BH, 2); (Bg1, 1); (Bpi, (-2)); (Bi, 1); (BlH, 1)], [(s43, (-1))]).
Definition m1089 : mono := ([(BW, 3); (Bg1, 1); (Bpi, (-2)); (Bi, 1); (BlH, 1)], [(s43, (-1))]).
Definition m1090 : mono := ([(BW, 1); (BZ, (-1)); (BH, 2); (Bg1, 1); (Bpi, (-2)); (BlH, 1)], [(s5, (-1)); (s6, (-1))]).
Definition m1091 : mono := ([(BW, 3); (BZ, (-1)); (Bg1, 1); (Bpi, (-2)); (BlH, 1)], [(s5, (-1)); (s6, (-1))]).
Definition m1092 : mono := ([(BW, 1); (BZ, 1); (Bg1, 1); (Bpi, (-2)); (BlH, 1)], [(s5, (-1)); (s6, (-1))]).
Definition m1093 : mono := ([(BW, 2); (BZ, (-1)); (BH, 2); (Bv, (-1)); (Bpi, (-2)); (BlH, 1)], [(s36, (-1))]).
Definition m1094 : mono := ([(BW, 4); (BZ, (-1)); (Bv, (-1)); (Bpi, (-2)); (BlH, 1)], [(s36, (-1))]).
Definition m1095 : mono := ([(BZ, 1); (BH, 2); (Bv, (-1)); (Bpi, (-2)); (BlH, 1)], [(s36, (-1))]).
Definition m1096 : mono := ([(BW, 2); (BZ, 1); (Bv, (-1)); (Bpi, (-2)); (BlH, 1)], [(s36, (-1))]).
Definition m1097 : mono := ([(BW, 1); (BZ, 1); (Bg1, 1); (Bpi, (-2)); (Bi, 1); (BlH, 1)], [(s5, (-1)); (s6, (-1))]).
Definition m1098 : mono := ([(BW, 2); (BZ, (-1)); (BH, 2); (Bv, (-1)); (Bpi, (-2)); (Bi, 1); (BlH, 1)], [(s5, (-1)); (s6, (-1))]).
Definition m1099 : mono := ([(BW, 4); (BZ, (-1)); (Bv, (-1)); (Bpi, (-2)); (Bi, 1); (BlH, 1)], [(s5, (-1)); (s6, (-1))]).
Definition m1100 : mono := ([(BZ, 1); (BH, 2); (Bv, (-1)); (Bpi, (-2)); (Bi, 1); (BlH, 1)], [(s5, (-1)); (s6, (-1))]).
Definition m1101 : mono := ([(BW, 2); (BZ, 1); (Bv, (-1)); (Bpi, (-2)); (Bi, 1); (BlH, 1)], [(s5, (-1)); (s6, (-1))]).
Definition m1102 : mono := ([(BW, 4); (Bpi, (-2)); (BlZ, 1)], [(s47, (-1))]).
Definition m1103 : mono := ([(BW, 2); (BZ, 2); (Bpi, (-2)); (BlZ, 1)], [(s47, (-1))]).
Definition m1104 : mono := ([(BZ, 4); (Bpi, (-2)); (BlZ, 1)], [(s47, (-1))]).
Definition m1105 : mono := ([(BW, 3); (BZ, (-1)); (Bg1, 1); (Bpi, (-2)); (Bi, 1); (BlZ, 1)], [(s5, (-1)); (s6, (-1))]).
Definition m1106 : mono := ([(BW, 1); (BZ, 1); (Bg1, 1); (Bpi, (-2)); (Bi, 1); (BlZ, 1)], [(s5, (-1)); (s6, (-1))]).
Definition m1107 : mono := ([(BW, 4); (BZ, (-1)); (Bv, (-1)); (Bpi, (-2)); (Bi, 1); (BlZ, 1)], [(s36, (-1))]).
Definition m1108 : mono := ([(BW, 2); (BZ, 1); (Bv, (-1)); (Bpi, (-2)); (Bi, 1); (BlZ, 1)], [(s36, (-1))]).
Definition m1109 : mono := ([(BZ, 3); (Bv, (-1)); (Bpi, (-2)); (Bi, 1); (BlZ, 1)], [(s36, (-1))]).
Definition m1110 : mono := ([(BW, 1); (BZ, (-1)); (Bt, 4); (Bv, (-1)); (Bpi, (-2)); (Br2, (-1))], [(s4, (-1))]).
Definition m1111 : mono := ([(BW, 3); (BZ, (-1)); (Bt, 2); (Bv, (-1)); (Bpi, (-2)); (Br2, (-1))], [(s4, (-1))]).
Definition m1112 : mono := ([(BZ, (-1)); (Bt, 6); (Bg1, 1); (Bpi, (-2)); (Br2, (-1))], [(s0, (-2)); (s1, (-2))]).
Definition m1113 : mono := ([(BW, 2); (BZ, (-1)); (Bt, 4); (Bg1, 1); (Bpi, (-2)); (Br2, (-1))], [(s0, (-2)); (s1, (-2))]).
Definition m1114 : mono := ([(BW, 4); (BZ, (-1)); (Bt, 2); (Bg1, 1); (Bpi, (-2)); (Br2, (-1))], [(s0, (-2)); (s1, (-2))]).
Definition m1115 : mono := ([(BW, 1); (BZ, (-1)); (Bt, 5); (Bg1, 1); (Bpi, (-2))], [(s0, (-2)); (s1, (-2))]).
Definition m1116 : mono := ([(BW, 3); (BZ, (-1)); (Bt, 3); (Bg1, 1); (Bpi, (-2))], [(s0, (-2)); (s1, (-2))]).
Definition m1117 : mono := ([(BW, 5); (BZ, (-1)); (Bt, 1); (Bg1, 1); (Bpi, (-2))], [(s0, (-2)); (s1, (-2))]).
Definition m1118 : mono := ([(BW, 1); (BZ, (-1)); (Bt, 6); (Bv, (-2)); (Bg1, 1); (Bpi, (-2))], [(s0, (-3)); (s1, (-3))]).
Definition m1119 : mono := ([(BW, 3); (BZ, (-1)); (Bt, 4); (Bv, (-2)); (Bg1, 1); (Bpi, (-2))], [(s0, (-3)); (s1, (-3))]).
Definition m1120 : mono := ([(BW, 5); (BZ, (-1)); (Bt, 2); (Bv, (-2)); (Bg1, 1); (Bpi, (-2))], [(s0, (-3)); (s1, (-3))]).
Definition m1121 : mono := ([(BW, 3); (BZ, (-1)); (Bt, 6); (Bg1, 1); (Bpi, (-2))], [(s0, (-3)); (s1, (-3)); (s40, (-1))]).
Definition m1122 : mono := ([(BW, 5); (BZ, (-1)); (Bt, 4); (Bg1, 1); (Bpi, (-2))], [(s0, (-3)); (s1, (-3)); (s40, (-1))]).
Definition m1123 : mono := ([(BW, 7); (BZ, (-1)); (Bt, 2); (Bg1, 1); (Bpi, (-2))], [(s0, (-3)); (s1, (-3)); (s40, (-1))]).
Definition m1124 : mono := ([(BW, 1); (BZ, (-1)); (Bt, 6); (Bv, 2); (Bg1, 3); (Bpi, (-2))], [(s0, (-3)); (s1, (-3)); (s40, (-1))]).
Definition m1125 : mono := ([(BW, 1); (BZ, (-1)); (Bt, 6); (Bv, 2); (Bg1, 1); (Bg2, 2); (Bpi, (-2))], [(s0, (-3)); (s1, (-3)); (s40, (-1))]).
Definition m1126 : mono := ([(BW, 3); (BZ, (-1)); (Bt, 4); (Bv, 2); (Bg1, 3); (Bpi, (-2))], [(s0, (-3)); (s1, (-3)); (s40, (-1))]).
Definition m1127 : mono := ([(BW, 3); (BZ, (-1)); (Bt, 4); (Bv, 2); (Bg1, 1); (Bg2, 2); (Bpi, (-2))], [(s0, (-3)); (s1, (-3)); (s40, (-1))]).
Definition m1128 : mono := ([(BW, 5); (BZ, (-1)); (Bt, 2); (Bv, 2); (Bg1, 3); (Bpi, (-2))], [(s0, (-3)); (s1, (-3)); (s40, (-1))]).
Definition m1129 : mono := ([(BW, 5); (BZ, (-1)); (Bt, 2); (Bv, 2); (Bg1, 1); (Bg2, 2); (Bpi, (-2))], [(s0, (-3)); (s1, (-3)); (s40, (-1))]).
Definition m1130 : mono := ([(BW, 1); (BZ, (-1)); (Bt, 6); (Bg2, 1); (Bpi, (-2))], [(s0, (-3)); (s1, (-3))]).
Definition m1131 : mono := ([(BW, 3); (BZ, (-1)); (Bt, 4); (Bg2, 1); (Bpi, (-2))], [(s0, (-3)); (s1, (-3))]).
Definition m1132 : mono := ([(BW, 5); (BZ, (-1)); (Bt, 2); (Bg2, 1); (Bpi, (-2))], [(s0, (-3)); (s1, (-3))]).
Definition m1133 : mono := ([(BW, 2); (BZ, (-1)); (Bt, 6); (Bv, (-1)); (Bpi, (-2))], [(s0, (-3)); (s1, (-3))]).
Definition m1134 : mono := ([(BW, 4); (BZ, (-1)); (Bt, 4); (Bv, (-1)); (Bpi, (-2))], [(s0, (-3)); (s1, (-3))]).
Definition m1135 : mono := ([(BW, 6); (BZ, (-1)); (Bt, 2); (Bv, (-1)); (Bpi, (-2))], [(s0, (-3)); (s1, (-3))]).
Definition m1136 : mono := ([(BW, 4); (BZ, (-1)); (Bt, 2); (Bv, (-1)); (Bpi, (-2)); (Bi, 1)], [(s0, (-2)); (s1, (-2))]).
Definition m1137 : mono := ([(BW, 2); (BZ, (-1)); (Bt, 4); (Bv, (-1)); (Bg1, 1); (Bpi, (-2))], [(s0, (-2)); (s1, (-2))]).
Definition m1138 : mono := ([(BW, 4); (BZ, (-1)); (Bt, 2); (Bv, (-1)); (Bg1, 1); (Bpi, (-2))], [(s0, (-2)); (s1, (-2))]).
Definition m1139 : mono := ([(BW, 2); (BZ, (-1)); (Bt, 4); (Bv, (-1)); (Bg1, 1); (Bpi, (-2)); (Bi, 1)], [(s0, (-2)); (s1, (-2))]).
Definition m1140 : mono := ([(BW, 4); (BZ, (-1)); (Bt, 2); (Bv, (-1)); (Bg1, 1); (Bpi, (-2)); (Bi, 1)], [(s0, (-2)); (s1, (-2))]).
Definition m1141 : mono := ([(BW, 1); (BZ, (-1)); (Bt, 5); (Bv, (-1)); (Bpi, (-2)); (Br2, (-1))], [(s0, (-2)); (s1, (-2))]).
Definition m1142 : mono := ([(BW, 3); (BZ, (-1)); (Bt, 3); (Bv, (-1)); (Bpi, (-2)); (Br2, (-1))], [(s0, (-2)); (s1, (-2))]).
Definition m1143 : mono := ([(BZ, (-1)); (Bt, 5); (Bg1, 1); (Bpi, (-2)); (Br2, (-1))], [(s0, (-2)); (s1, (-2))]).
Definition m1144 : mono := ([(BW, 2); (BZ, (-1)); (Bt, 3); (Bg1, 1); (Bpi, (-2)); (Br2, (-1))], [(s0, (-2)); (s1, (-2))]).
Definition m1145 : mono := ([(BW, 1); (BZ, (-1)); (Bt, 6); (Bg1, 1); (Bpi, (-2))], [(s0, (-3)); (s1, (-3))]).
Definition m1146 : mono := ([(BW, 3); (BZ, (-1)); (Bt, 4); (Bg1, 1); (Bpi, (-2))], [(s0, (-3)); (s1, (-3))]).
Definition m1147 : mono := ([(BW, 5); (BZ, (-1)); (Bt, 2); (Bg1, 1); (Bpi, (-2))], [(s0, (-3)); (s1, (-3))]).
Definition m1148 : mono := ([(BW, 1); (BZ, (-1)); (Bt, 3); (Bv, (-1)); (Bpi, (-2)); (Br2, (-1))], [(s0, (-1)); (s1, (-1))]).
Definition m1149 : mono := ([(BW, 3); (BZ, (-1)); (Bt, 1); (Bv, (-1)); (Bpi, (-2)); (Br2, (-1))], [(s0, (-1)); (s1, (-1))]).
Definition m1150 : mono := ([(BZ, (-1)); (Bt, 7); (Bg1, 1); (Bpi, (-2)); (Br2, (-1))], [(s0, (-3)); (s1, (-3))]).
Definition m1151 : mono := ([(BW, 2); (BZ, (-1)); (Bt, 5); (Bg1, 1); (Bpi, (-2)); (Br2, (-1))], [(s0, (-3)); (s1, (-3))]).
Definition m1152 : mono := ([(BW, 4); (BZ, (-1)); (Bt, 3); (Bg1, 1); (Bpi, (-2)); (Br2, (-1))], [(s0, (-3)); (s1, (-3))]).
Definition m1153 : mono := ([(BW, 6); (BZ, (-1)); (Bt, 1); (Bg1, 1); (Bpi, (-2)); (Br2, (-1))], [(s0, (-3)); (s1, (-3))]).
Definition m1154 : mono := ([(BW, 1); (BZ, (-1)); (Bt, 1); (Bv, (-1)); (Bpi, (-2)); (Br2, (-1))], []).
Definition m1155 : mono := ([(BW, 1); (BH, 2); (Bg1, 1); (Bpi, (-2)); (BlH, 1)], [(s43, (-1))]).
Definition m1156 : mono := ([(BW, 3); (Bg1, 1); (Bpi, (-2)); (BlH, 1)], [(s43, (-1))]).
Definition m1157 : mono := ([(BW, 2); (BH, 2); (Bv, (-1)); (Bpi, (-2)); (BlH, 1)], [(s43, (-1))]).
Definition m1158 : mono := ([(BW, 4); (Bv, (-1)); (Bpi, (-2)); (BlH, 1)], [(s43, (-1))]).
Definition m1159 : mono := ([(BZ, 2); (BH, 2); (Bv, (-1)); (Bpi, (-2)); (BlH, 1)], [(s43, (-1))]).
Definition m1160 : mono := ([(BW, 2); (BZ, 2); (Bv, (-1)); (Bpi, (-2)); (BlH, 1)], [(s43, (-1))]).
Definition m1161 : mono := ([(BW, 1); (BZ, (-1)); (Bt, 6); (Bv, (-1)); (Bpi, (-2)); (Br2, (-1)); (Blt, 1)], [(s0, (-2)); (s1, (-2))]).
Definition m1162 : mono := ([(BW, 3); (BZ, (-1)); (Bt, 4); (Bv, (-1)); (Bpi, (-2)); (Br2, (-1)); (Blt, 1)], [(s0, (-2)); (s1, (-2))]).
Definition m1163 : mono := ([(BZ, (-1)); (Bt, 8); (Bg1, 1); (Bpi, (-2)); (Br2, (-1)); (Blt, 1)], [(s0, (-3)); (s1, (-3))]).
Definition m1164 : mono := ([(BW, 2); (BZ, (-1)); (Bt, 6); (Bg1, 1); (Bpi, (-2)); (Br2, (-1)); (Blt, 1)], [(s0, (-3)); (s1, (-3))]).
Definition m1165 : mono := ([(BW, 4); (BZ, (-1)); (Bt, 4); (Bg1, 1); (Bpi, (-2)); (Br2, (-1)); (Blt, 1)], [(s0, (-3)); (s1, (-3))]).
Definition m1166 : mono := ([(BW, 6); (BZ, (-1)); (Bt, 2); (Bg1, 1); (Bpi, (-2)); (Br2, (-1)); (Blt, 1)], [(s0, (-3)); (s1, (-3))]).
Definition m1167 : mono := ([(BW, 3); (BZ, (-1)); (Bt, 5); (Bg1, 1); (Bpi, (-2)); (Blt, 1)], [(s0, (-3)); (s1, (-3))]).
Definition m1168 : mono := ([(BW, 5); (BZ, (-1)); (Bt, 3); (Bg1, 1); (Bpi, (-2)); (Blt, 1)], [(s0, (-3)); (s1, (-3))]).
Definition m1169 : mono := ([(BW, 1); (BZ, (-1)); (Bt, 1); (Bg1, 1); (Bpi, (-2)); (Blt, 1)], []).
Definition m1170 : mono := ([(BW, 1); (BZ, (-1)); (Bt, 1); (Bg1, 1); (Bpi, (-2)); (Bcf, 1); (Blt, 1)], []).
Definition m1171 : mono := ([(BW, 3); (BZ, (-1)); (Bt, 6); (Bv, (-2)); (Bg1, 1); (Bpi, (-2)); (Blt, 1)], [(s0, (-4)); (s1, (-4))]).
Definition m1172 : mono := ([(BW, 5); (BZ, (-1)); (Bt, 4); (Bv, (-2)); (Bg1, 1); (Bpi, (-2)); (Blt, 1)], [(s0, (-4)); (s1, (-4))]).
Definition m1173 : mono := ([(BW, 5); (BZ, (-1)); (Bt, 6); (Bg1, 1); (Bpi, (-2)); (Blt, 1)], [(s0, (-4)); (s1, (-4)); (s40, (-1))]).
Definition m1174 : mono := ([(BW, 7); (BZ, (-1)); (Bt, 4); (Bg1, 1); (Bpi, (-2)); (Blt, 1)], [(s0, (-4)); (s1, (-4)); (s40, (-1))]).
Definition m1175 : mono := ([(BW, 3); (BZ, (-1)); (Bt, 6); (Bv, 2); (Bg1, 3); (Bpi, (-2)); (Blt, 1)], [(s0, (-4)); (s1, (-4)); (s40, (-1))]).
Definition m1176 : mono := ([(BW, 3); (BZ, (-1)); (Bt, 6); (Bv, 2); (Bg1, 1); (Bg2, 2); (Bpi, (-2)); (Blt, 1)], [(s0, (-4)); (s1, (-4)); (s40, (-1))]).
Definition m1177 : mono := ([(BW, 5); (BZ, (-1)); (Bt, 4); (Bv, 2); (Bg1, 3); (Bpi, (-2)); (Blt, 1)], [(s0, (-4)); (s1, (-4)); (s40, (-1))]).
Definition m1178 : mono := ([(BW, 5); (BZ, (-1)); (Bt, 4); (Bv, 2); (Bg1, 1); (Bg2, 2); (Bpi, (-2)); (Blt, 1)], [(s0, (-4)); (s1, (-4)); (s40, (-1))]).
Definition m1179 : mono := ([(BW, 3); (BZ, (-1)); (Bt, 6); (Bg2, 1); (Bpi, (-2)); (Blt, 1)], [(s0, (-4)); (s1, (-4))]).
Definition m1180 : mono := ([(BW, 5); (BZ, (-1)); (Bt, 4); (Bg2, 1); (Bpi, (-2)); (Blt, 1)], [(s0, (-4)); (s1, (-4))]).
Definition m1181 : mono := ([(BW, 2); (BZ, (-1)); (Bt, 8); (Bv, (-1)); (Bpi, (-2)); (Blt, 1)], [(s0, (-4)); (s1, (-4))]).
Definition m1182 : mono := ([(BW, 4); (BZ, (-1)); (Bt, 6); (Bv, (-1)); (Bpi, (-2)); (Blt, 1)], [(s0, (-4)); (s1, (-4))]).
Definition m1183 : mono := ([(BW, 6); (BZ, (-1)); (Bt, 4); (Bv, (-1)); (Bpi, (-2)); (Blt, 1)], [(s0, (-4)); (s1, (-4))]).
Definition m1184 : mono := ([(BW, 2); (BZ, (-1)); (Bt, 6); (Bv, (-1)); (Bpi, (-2)); (Bi, 1); (Blt, 1)], [(s0, (-3)); (s1, (-3))]).
Definition m1185 : mono := ([(BW, 4); (BZ, (-1)); (Bt, 4); (Bv, (-1)); (Bpi, (-2)); (Bi, 1); (Blt, 1)], [(s0, (-3)); (s1, (-3))]).
Definition m1186 : mono := ([(BW, 4); (BZ, (-1)); (Bt, 4); (Bv, (-1)); (Bg1, 1); (Bpi, (-2)); (Blt, 1)], [(s0, (-3)); (s1, (-3))]).
Definition m1187 : mono := ([(BW, 4); (BZ, (-1)); (Bt, 4); (Bv, (-1)); (Bg1, 1); (Bpi, (-2)); (Bi, 1); (Blt, 1)], [(s0, (-3)); (s1, (-3))]).
Definition m1188 : mono := ([(BW, 3); (BZ, (-1)); (Bt, 5); (Bv, (-1)); (Bpi, (-2)); (Br2, (-1)); (Blt, 1)], [(s0, (-3)); (s1, (-3))]).
Definition m1189 : mono := ([(BW, 2); (BZ, (-1)); (Bt, 5); (Bg1, 1); (Bpi, (-2)); (Br2, (-1)); (Blt, 1)], [(s0, (-3)); (s1, (-3))]).
Definition m1190 : mono := ([(BW, 3); (BZ, (-1)); (Bt, 6); (Bg1, 1); (Bpi, (-2)); (Blt, 1)], [(s0, (-4)); (s1, (-4))]).
Definition m1191 : mono := ([(BW, 5); (BZ, (-1)); (Bt, 4); (Bg1, 1); (Bpi, (-2)); (Blt, 1)], [(s0, (-4)); (s1, (-4))]).
Definition m1192 : mono := ([(BW, 1); (BZ, (-1)); (Bt, 5); (Bv, (-1)); (Bpi, (-2)); (Br2, (-1)); (Blt, 1)], [(s0, (-2)); (s1, (-2))]).
Definition m1193 : mono := ([(BZ, (-1)); (Bt, 9); (Bg1, 1); (Bpi, (-2)); (Br2, (-1)); (Blt, 1)], [(s0, (-4)); (s1, (-4))]).
Definition m1194 : mono := ([(BW, 2); (BZ, (-1)); (Bt, 7); (Bg1, 1); (Bpi, (-2)); (Br2, (-1)); (Blt, 1)], [(s0, (-4)); (s1, (-4))]).
Definition m1195 : mono := ([(BW, 4); (BZ, (-1)); (Bt, 5); (Bg1, 1); (Bpi, (-2)); (Br2, (-1)); (Blt, 1)], [(s0, (-4)); (s1, (-4))]).
Definition m1196 : mono := ([(BW, 6); (BZ, (-1)); (Bt, 3); (Bg1, 1); (Bpi, (-2)); (Br2, (-1)); (Blt, 1)], [(s0, (-4)); (s1, (-4))]).
Definition m1197 : mono := ([(BW, 8); (BZ, (-1)); (Bt, 1); (Bg1, 1); (Bpi, (-2)); (Br2, (-1)); (Blt, 1)], [(s0, (-4)); (s1, (-4))]).
Definition m1198 : mono := ([(BW, 5); (BZ, (-1)); (Bt, 2); (Bv, (-1)); (Bpi, (-2)); (Br2, (-1)); (BlW, 1)], [(s0, (-2)); (s1, (-2))]).
Definition m1199 : mono := ([(BW, 2); (BZ, (-1)); (Bt, 6); (Bg1, 1); (Bpi, (-2)); (Br2, (-1)); (BlW, 1)], [(s0, (-3)); (s1, (-3))]).
Definition m1200 : mono := ([(BW, 4); (BZ, (-1)); (Bt, 4); (Bg1, 1); (Bpi, (-2)); (Br2, (-1)); (BlW, 1)], [(s0, (-3)); (s1, (-3))]).
Definition m1201 : mono := ([(BW, 6); (BZ, (-1)); (Bt, 2); (Bg1, 1); (Bpi, (-2)); (Br2, (-1)); (BlW, 1)], [(s0, (-3)); (s1, (-3))]).
Definition m1202 : mono := ([(BW, 3); (BZ, (-1)); (Bt, 5); (Bg1, 1); (Bpi, (-2)); (BlW, 1)], [(s0, (-3)); (s1, (-3))]).
Definition m1203 : mono := ([(BW, 5); (BZ, (-1)); (Bt, 3); (Bg1, 1); (Bpi, (-2)); (BlW, 1)], [(s0, (-3)); (s1, (-3))]).
Definition m1204 : mono := ([(BW, 3); (BZ, (-1)); (Bt, 6); (Bv, (-2)); (Bg1, 1); (Bpi, (-2)); (BlW, 1)], [(s0, (-4)); (s1, (-4))]).
Definition m1205 : mono := ([(BW, 5); (BZ, (-1)); (Bt, 4); (Bv, (-2)); (Bg1, 1); (Bpi, (-2)); (BlW, 1)], [(s0, (-4)); (s1, (-4))]).
Definition m1206 : mono := ([(BW, 5); (BZ, (-1)); (Bt, 6); (Bg1, 1); (Bpi, (-2)); (BlW, 1)], [(s0, (-4)); (s1, (-4)); (s40, (-1))]).
Definition m1207 : mono := ([(BW, 7); (BZ, (-1)); (Bt, 4); (Bg1, 1); (Bpi, (-2)); (BlW, 1)], [(s0, (-4)); (s1, (-4)); (s40, (-1))]).
Definition m1208 : mono := ([(BW, 3); (BZ, (-1)); (Bt, 6); (Bv, 2); (Bg1, 3); (Bpi, (-2)); (BlW, 1)], [(s0, (-4)); (s1, (-4)); (s40, (-1))]).
Definition m1209 : mono := ([(BW, 3); (BZ, (-1)); (Bt, 6); (Bv, 2); (Bg1, 1); (Bg2, 2); (Bpi, (-2)); (BlW, 1)], [(s0, (-4)); (s1, (-4)); (s40, (-1))]).
Definition m1210 : mono := ([(BW, 5); (BZ, (-1)); (Bt, 4); (Bv, 2); (Bg1, 3); (Bpi, (-2)); (BlW, 1)], [(s0, (-4)); (s1, (-4)); (s40, (-1))]).
Definition m1211 : mono := ([(BW, 5); (BZ, (-1)); (Bt, 4); (Bv, 2); (Bg1, 1); (Bg2, 2); (Bpi, (-2)); (BlW, 1)], [(s0, (-4)); (s1, (-4)); (s40, (-1))]).
Definition m1212 : mono := ([(BW, 3); (BZ, (-1)); (Bt, 6); (Bg2, 1); (Bpi, (-2)); (BlW, 1)], [(s0, (-4)); (s1, (-4))]).
Definition m1213 : mono := ([(BW, 5); (BZ, (-1)); (Bt, 4); (Bg2, 1); (Bpi, (-2)); (BlW, 1)], [(s0, (-4)); (s1, (-4))]).
Definition m1214 : mono := ([(BW, 2); (BZ, (-1)); (Bt, 8); (Bv, (-1)); (Bpi, (-2)); (BlW, 1)], [(s0, (-4)); (s1, (-4))]).
Definition m1215 : mono := ([(BW, 4); (BZ, (-1)); (Bt, 6); (Bv, (-1)); (Bpi, (-2)); (BlW, 1)], [(s0, (-4)); (s1, (-4))]).
Definition m1216 : mono := ([(BW, 6); (BZ, (-1)); (Bt, 4); (Bv, (-1)); (Bpi, (-2)); (BlW, 1)], [(s0, (-4)); (s1, (-4))]).
Definition m1217 : mono := ([(BW, 2); (BZ, (-1)); (Bt, 6); (Bv, (-1)); (Bpi, (-2)); (Bi, 1); (BlW, 1)], [(s0, (-3)); (s1, (-3))]).
Definition m1218 : mono := ([(BW, 4); (BZ, (-1)); (Bt, 4); (Bv, (-1)); (Bpi, (-2)); (Bi, 1); (BlW, 1)], [(s0, (-3)); (s1, (-3))]).
Definition m1219 : mono := ([(BW, 4); (BZ, (-1)); (Bt, 4); (Bv, (-1)); (Bg1, 1); (Bpi, (-2)); (BlW, 1)], [(s0, (-3)); (s1, (-3))]).
Definition m1220 : mono := ([(BW, 4); (BZ, (-1)); (Bt, 4); (Bv, (-1)); (Bg1, 1); (Bpi, (-2)); (Bi, 1); (BlW, 1)], [(s0, (-3)); (s1, (-3))]).
Definition m1221 : mono := ([(BW, 3); (BZ, (-1)); (Bt, 5); (Bv, (-1)); (Bpi, (-2)); (Br2, (-1)); (BlW, 1)], [(s0, (-3)); (s1, (-3))]).
Definition m1222 : mono := ([(BW, 2); (BZ, (-1)); (Bt, 5); (Bg1, 1); (Bpi, (-2)); (Br2, (-1)); (BlW, 1)], [(s0, (-3)); (s1, (-3))]).
Definition m1223 : mono := ([(BW, 3); (BZ, (-1)); (Bt, 6); (Bg1, 1); (Bpi, (-2)); (BlW, 1)], [(s0, (-4)); (s1, (-4))]).
Definition m1224 : mono := ([(BW, 5); (BZ, (-1)); (Bt, 4); (Bg1, 1); (Bpi, (-2)); (BlW, 1)], [(s0, (-4)); (s1, (-4))]).
Definition m1225 : mono := ([(BW, 3); (BZ, (-1)); (Bt, 3); (Bv, (-1)); (Bpi, (-2)); (Br2, (-1)); (BlW, 1)], [(s0, (-2)); (s1, (-2))]).
Definition m1226 : mono := ([(BW, 5); (BZ, (-1)); (Bt, 1); (Bv, (-1)); (Bpi, (-2)); (Br2, (-1)); (BlW, 1)], [(s0, (-2)); (s1, (-2))]).
Definition m1227 : mono := ([(BW, 2); (BZ, (-1)); (Bt, 7); (Bg1, 1); (Bpi, (-2)); (Br2, (-1)); (BlW, 1)], [(s0, (-4)); (s1, (-4))]).
Definition m1228 : mono := ([(BW, 4); (BZ, (-1)); (Bt, 5); (Bg1, 1); (Bpi, (-2)); (Br2, (-1)); (BlW, 1)], [(s0, (-4)); (s1, (-4))]).
Definition m1229 : mono := ([(BW, 6); (BZ, (-1)); (Bt, 3); (Bg1, 1); (Bpi, (-2)); (Br2, (-1)); (BlW, 1)], [(s0, (-4)); (s1, (-4))]).
Definition m1230 : mono := ([(BW, 8); (BZ, (-1)); (Bt, 1); (Bg1, 1); (Bpi, (-2)); (Br2, (-1)); (BlW, 1)], [(s0, (-4)); (s1, (-4))]).
Definition m1231 : mono := ([(BW, 3); (BZ, (-1)); (Bg1, 1); (Bpi, (-2)); (BlZ, 1)], [(s5, (-1)); (s6, (-1))]).
Definition m1232 : mono := ([(BW, 1); (BZ, 1); (Bg1, 1); (Bpi, (-2)); (BlZ, 1)], [(s5, (-1)); (s6, (-1))]).
Definition m1233 : mono := ([(BW, 4); (Bv, (-1)); (Bpi, (-2)); (BlZ, 1)], [(s43, (-1))]).
Definition m1234 : mono := ([(BW, 2); (BZ, 2); (Bv, (-1)); (Bpi, (-2)); (BlZ, 1)], [(s43, (-1))]).
Definition m1235 : mono := ([(BZ, 4); (Bv, (-1)); (Bpi, (-2)); (BlZ, 1)], [(s43, (-1))]).
Definition m1236 : mono := ([(BW, 3); (Bg1, 1); (Bpi, (-2)); (Bi, 1); (BlZ, 1)], [(s43, (-1))]).
Definition m1237 : mono := ([(BW, 1); (BZ, 2); (Bg1, 1); (Bpi, (-2)); (Bi, 1); (BlZ, 1)], [(s43, (-1))]).
Definition m1238 : mono := ([(Bt, 4); (Bv, (-1)); (Bpi, (-2)); (Br2, (-1))], [(s4, (-1))]).
Definition m1239 : mono := ([(BW, 2); (Bt, 2); (Bv, (-1)); (Bpi, (-2)); (Br2, (-1))], [(s4, (-1))]).
Definition m1240 : mono := ([(BW, 1); (Bt, 4); (Bg3, 1); (Bpi, (-2)); (Br2, (-1))], [(s4, (-2))]).
Definition m1241 : mono := ([(BW, 3); (Bt, 2); (Bg3, 1); (Bpi, (-2)); (Br2, (-1))], [(s4, (-2))]).
Definition m1242 : mono := ([(Bt, 5); (Bg3, 1); (Bpi, (-2))], [(s4, (-2))]).
Definition m1243 : mono := ([(BW, 2); (Bt, 3); (Bg3, 1); (Bpi, (-2))], [(s4, (-2))]).
Definition m1244 : mono := ([(BW, 4); (Bt, 1); (Bg3, 1); (Bpi, (-2))], [(s4, (-2))]).
Definition m1245 : mono := ([(Bt, 6); (Bv, (-2)); (Bg3, 1); (Bpi, (-2))], [(s4, (-3))]).
Definition m1246 : mono := ([(BW, 2); (Bt, 4); (Bv, (-2)); (Bg3, 1); (Bpi, (-2))], [(s4, (-3))]).
Definition m1247 : mono := ([(BW, 4); (Bt, 2); (Bv, (-2)); (Bg3, 1); (Bpi, (-2))], [(s4, (-3))]).
Definition m1248 : mono := ([(Bt, 5); (Bv, (-1)); (Bpi, (-2)); (Br2, (-1))], [(s4, (-2))]).
Definition m1249 : mono := ([(BW, 2); (Bt, 3); (Bv, (-1)); (Bpi, (-2)); (Br2, (-1))], [(s4, (-2))]).
Definition m1250 : mono := ([(Bt, 6); (Bg3, 1); (Bpi, (-2))], [(s4, (-3))]).
Definition m1251 : mono := ([(BW, 2); (Bt, 4); (Bg3, 1); (Bpi, (-2))], [(s4, (-3))]).
Definition m1252 : mono := ([(BW, 4); (Bt, 2); (Bg3, 1); (Bpi, (-2))], [(s4, (-3))]).
Definition m1253 : mono := ([(Bt, 3); (Bv, (-1)); (Bpi, (-2)); (Br2, (-1))], [(s4, (-1))]).
Definition m1254 : mono := ([(BW, 2); (Bt, 1); (Bv, (-1)); (Bpi, (-2)); (Br2, (-1))], [(s4, (-1))]).
Definition m1255 : mono := ([(BW, 1); (Bt, 5); (Bg3, 1); (Bpi, (-2)); (Br2, (-1))], [(s4, (-3))]).
Definition m1256 : mono := ([(BW, 3); (Bt, 3); (Bg3, 1); (Bpi, (-2)); (Br2, (-1))], [(s4, (-3))]).
Definition m1257 : mono := ([(BW, 5); (Bt, 1); (Bg3, 1); (Bpi, (-2)); (Br2, (-1))], [(s4, (-3))]).
Definition m1258 : mono := ([(Bt, 6); (Bv, (-1)); (Bpi, (-2)); (Br2, (-1)); (Blt, 1)], [(s4, (-2))]).
Definition m1259 : mono := ([(BW, 2); (Bt, 4); (Bv, (-1)); (Bpi, (-2)); (Br2, (-1)); (Blt, 1)], [(s4, (-2))]).
Definition m1260 : mono := ([(BW, 1); (Bt, 6); (Bg3, 1); (Bpi, (-2)); (Br2, (-1)); (Blt, 1)], [(s4, (-3))]).
Definition m1261 : mono := ([(BW, 3); (Bt, 4); (Bg3, 1); (Bpi, (-2)); (Br2, (-1)); (Blt, 1)], [(s4, (-3))]).
Definition m1262 : mono := ([(BW, 5); (Bt, 2); (Bg3, 1); (Bpi, (-2)); (Br2, (-1)); (Blt, 1)], [(s4, (-3))]).
Definition m1263 : mono := ([(BW, 4); (Bt, 3); (Bg3, 1); (Bpi, (-2)); (Blt, 1)], [(s4, (-3))]).
Definition m1264 : mono := ([(Bt, 1); (Bg3, 1); (Bpi, (-2)); (Blt, 1)], []).
Definition m1265 : mono := ([(Bt, 1); (Bg3, 1); (Bpi, (-2)); (BNc, (-1)); (Blt, 1)], []).
Definition m1266 : mono := ([(BW, 4); (Bt, 4); (Bv, (-2)); (Bg3, 1); (Bpi, (-2)); (Blt, 1)], [(s4, (-4))]).
Definition m1267 : mono := ([(BW, 2); (Bt, 5); (Bv, (-1)); (Bpi, (-2)); (Br2, (-1)); (Blt, 1)], [(s4, (-3))]).
Definition m1268 : mono := ([(BW, 4); (Bt, 4); (Bg3, 1); (Bpi, (-2)); (Blt, 1)], [(s4, (-4))]).
Definition m1269 : mono := ([(Bt, 5); (Bv, (-1)); (Bpi, (-2)); (Br2, (-1)); (Blt, 1)], [(s4, (-2))]).
Definition m1270 : mono := ([(BW, 5); (Bt, 3); (Bg3, 1); (Bpi, (-2)); (Br2, (-1)); (Blt, 1)], [(s4, (-4))]).
Definition m1271 : mono := ([(BW, 7); (Bt, 1); (Bg3, 1); (Bpi, (-2)); (Br2, (-1)); (Blt, 1)], [(s4, (-4))]).
Definition m1272 : mono := ([(BW, 4); (Bt, 2); (Bv, (-1)); (Bpi, (-2)); (Br2, (-1)); (BlW, 1)], [(s4, (-2))]).
Definition m1273 : mono := ([(BW, 1); (Bt, 6); (Bg3, 1); (Bpi, (-2)); (Br2, (-1)); (BlW, 1)], [(s4, (-3))]).
Definition m1274 : mono := ([(BW, 3); (Bt, 4); (Bg3, 1); (Bpi, (-2)); (Br2, (-1)); (BlW, 1)], [(s4, (-3))]).
Definition m1275 : mono := ([(BW, 5); (Bt, 2); (Bg3, 1); (Bpi, (-2)); (Br2, (-1)); (BlW, 1)], [(s4, (-3))]).
Definition m1276 : mono := ([(BW, 4); (Bt, 3); (Bg3, 1); (Bpi, (-2)); (BlW, 1)], [(s4, (-3))]).
Definition m1277 : mono := ([(BW, 4); (Bt, 4); (Bv, (-2)); (Bg3, 1); (Bpi, (-2)); (BlW, 1)], [(s4, (-4))]).
Definition m1278 : mono := ([(BW, 2); (Bt, 5); (Bv, (-1)); (Bpi, (-2)); (Br2, (-1)); (BlW, 1)], [(s4, (-3))]).
Definition m1279 : mono := ([(BW, 4); (Bt, 4); (Bg3, 1); (Bpi, (-2)); (BlW, 1)], [(s4, (-4))]).
Definition m1280 : mono := ([(BW, 2); (Bt, 3); (Bv, (-1)); (Bpi, (-2)); (Br2, (-1)); (BlW, 1)], [(s4, (-2))]).
Definition m1281 : mono := ([(BW, 4); (Bt, 1); (Bv, (-1)); (Bpi, (-2)); (Br2, (-1)); (BlW, 1)], [(s4, (-2))]).
Definition m1282 : mono := ([(BW, 5); (Bt, 3); (Bg3, 1); (Bpi, (-2)); (Br2, (-1)); (BlW, 1)], [(s4, (-4))]).
Definition m1283 : mono := ([(BW, 7); (Bt, 1); (Bg3, 1); (Bpi, (-2)); (Br2, (-1)); (BlW, 1)], [(s4, (-4))]).
(* scalar factors *)
Definition p0 : pref := [T (-1) 16 m0].
Definition p1 : pref := [T 1 96 m1].
Definition p2 : pref := [T (-1) 96 m1].
Definition p3 : pref := [T 1 2880 m2].
Definition p4 : pref := [T (-1) 96 m3].
Definition p5 : pref := [T 5 8 m4; T 1 1 m15].
Definition p6 : pref := [T (-3) 4 m4; T (-1) 2 m15].
Definition p7 : pref := [T (-1) 9 m4; T (-1) 36 m5; T 11 144 m6; T (-1) 4 m15; T (-1) 6 m20; T 1 4 m21; T 1 24 m22].
Definition p8 : pref := [T 7 36 m4; T (-13) 72 m5; T (-11) 144 m6; T 1 4 m15; T (-1) 6 m20; T 7 12 m21; T (-1) 24 m22].
Definition p9 : pref := [T 1 4 m4; T 5 4 m5; T 1 2 m15; T (-1) 3 m20; T 5 6 m21].
Definition p10 : pref := [T 5 9 m4; T 13 72 m5; T 11 144 m6; T 1 4 m15; T 1 6 m20; T (-7) 12 m21; T 1 24 m22].
Definition p11 : pref := [T 3 64 m7; T 3 64 m8; T 1 32 m9; T 1 16 m10; T (-1) 8 m16; T 1 32 m17].
Definition p12 : pref := [T (-3) 64 m7; T (-3) 64 m8; T (-1) 32 m9; T (-1) 16 m10; T 1 8 m16; T (-1) 32 m17].
Definition p13 : pref := [T (-3) 64 m7; T (-3) 64 m8; T (-1) 32 m9; T 3 16 m10; T (-1) 4 m11; T (-1) 8 m16; T 7 32 m17].
Definition p14 : pref := [T 1 1 m12; T (-1) 4 m18].
Definition p15 : pref := [T 1 1 m13; T (-1) 2 m18].
Definition p16 : pref := [T (-1) 4 m14; T 1 1 m19].
Definition p17 : pref := [T (-7) 36 m4; T 1 18 m5; T 11 144 m6; T (-1) 4 m15; T 1 12 m21; T 1 24 m22].
Definition p18 : pref := [T 1 9 m4; T (-7) 72 m5; T (-11) 144 m6; T 1 4 m15; T 1 3 m20; T 1 12 m21; T (-1) 24 m22].
Definition p19 : pref := [T 5 4 m4; T 1 4 m5; T 1 2 m15; T 1 3 m20; T 1 6 m21].
Definition p20 : pref := [T 23 36 m4; T 7 72 m5; T 11 144 m6; T 1 4 m15; T (-1) 3 m20; T (-1) 12 m21; T 1 24 m22].
Definition p21 : pref := [T 7 9 m4; T (-29) 36 m5; T (-127) 288 m6; T (-3) 8 m15; T 23 24 m20; T (-2) 3 m21; T (-23) 48 m22; T 5 12 m23; T (-5) 12 m24].
Definition p22 : pref := [T 3 64 m7; T 3 64 m8; T 1 32 m9; T (-7) 16 m10; T 1 2 m11; T 3 8 m16; T (-15) 32 m17].
Definition p23 : pref := [T (-7) 72 m4; T (-2) 9 m5; T (-43) 288 m6; T (-3) 8 m15; T 5 24 m20; T (-1) 6 m21; T (-11) 48 m22; T (-1) 12 m23; T (-1) 12 m24; T 1 6 m25].
Definition p24 : pref := [T (-47) 72 m4; T 29 36 m5; T 91 288 m6; T 3 8 m15; T (-17) 24 m20; T 2 3 m21; T 11 48 m22; T (-7) 12 m23; T 5 12 m24; T 1 6 m25].
Definition p25 : pref := [T 1 18 m4; T (-1) 36 m5; T (-1) 36 m6; T (-1) 2 m20; T 1 4 m21; T 1 4 m22].
Definition p26 : pref := [T (-5) 2 m4; T 5 4 m5; T 5 4 m6; T (-5) 3 m20; T 5 6 m21; T 5 6 m22].
Definition p27 : pref := [T 5 24 m4; T 5 6 m5; T (-5) 48 m6; T 1 12 m20; T 1 3 m21; T (-1) 24 m22; T (-1) 18 m23; T (-2) 9 m24; T 1 36 m25].
Definition p28 : pref := [T (-83) 24 m4; T (-5) 6 m5; T 5 48 m6; T (-3) 2 m15; T (-1) 12 m20; T (-1) 3 m21; T 1 24 m22; T 5 9 m23; T 2 9 m24; T (-1) 36 m25].
Definition p29 : pref := [T (-15) 8 m26; T 1 2 m27; T (-3) 4 m405].
Definition p30 : pref := [T 43 24 m26; T (-1) 9 m27; T 7 6 m28; T 1 18 m29; T (-5) 24 m30; T 1 18 m31; T 3 4 m405; T 1 6 m509; T 2 3 m510; T (-1) 12 m511].
Definition p31 : pref := [T 7 288 m32; T 87991 58320 m33; T (-2) 81 m34; T (-1) 12 m35; T 502 729 m36; T (-16) 81 m37; T (-7) 36 m38; T (-878) 1215 m39; T 4 27 m40; T (-2) 9 m41; T (-7) 144 m42; T (-1171) 4860 m43; T 2 27 m44; T (-1) 18 m45; T (-13) 864 m46; T (-1) 36 m47; T 1 72 m48; T (-1) 18 m49; T 32 1215 m50; T 4 9 m51; T 32 1215 m52; T 1 9 m53; T (-64) 1215 m54; T 1 48 m239; T 1 12 m240; T (-1) 6 m241; T (-1) 24 m242; T 1 3 m243; T (-1) 24 m244; T 1 72 m280; T (-1) 18 m281; T 5 243 m282; T 64 243 m283; T (-1) 9 m284; T 4 9 m285; T (-32) 81 m286; T (-1) 36 m287; T 1 9 m288; T 1 9 m289; T (-47) 216 m406; T 1 12 m407; T (-28) 9 m408; T 161 54 m409; T (-2) 3 m410; T 13 18 m411; T (-1) 6 m412; T 11 243 m512; T (-59) 162 m513; T 52 243 m514; T (-10) 81 m515; T (-52) 243 m516; T (-11) 81 m517; T 10 81 m518; T (-331) 1944 m519; T 1 3 m520; T 1 16 m521; T 1 12 m522; T (-1) 24 m523].
Definition p32 : pref := [T (-1) 24 m55; T 1 3 m56; T 1 12 m57; T (-1) 24 m245; T 1 3 m246; T 1 12 m247].
Definition p33 : pref := [T 1 12 m58; T (-41) 36 m59; T (-5) 9 m60; T 4 9 m61; T 8 9 m62; T (-7) 18 m63; T (-2) 3 m64; T (-7) 9 m65; T (-8) 9 m66; T (-1) 18 m67; T 7 12 m68; T 11 9 m69; T 7 9 m70; T (-2) 9 m71; T 5 9 m72; T 1 36 m73; T 5 36 m74; T (-1) 36 m75; T (-2) 9 m76; T (-16) 9 m77; T 14 9 m78; T 16 9 m79; T 2 9 m80; T (-14) 9 m81; T 1 6 m248; T (-7) 6 m249; T 4 9 m250; T (-7) 18 m251; T (-4) 3 m252; T (-1) 18 m253; T 7 6 m254; T 4 3 m255; T (-1) 6 m256; T (-16) 9 m290; T 14 9 m291; T 2 9 m292; T 8 3 m413; T (-7) 3 m414; T (-1) 3 m415; T (-5) 3 m524; T (-40) 9 m525; T 2 1 m526; T (-5) 12 m527; T 67 18 m528; T 2 1 m529; T 1 12 m530; T 8 9 m531; T (-5) 3 m532; T (-1) 6 m533; T (-5) 12 m534; T 1 12 m535].
Definition p34 : pref := [T 5 72 m4; T 5 18 m5; T (-5) 144 m6; T 11 144 m82; T (-1) 6 m83; T (-11) 18 m84; T (-4) 9 m85; T (-11) 72 m86; T (-1) 9 m87; T (-1) 18 m88; T 1 36 m89; T (-1) 9 m90; T 8 9 m91; T 2 9 m92; T 5 72 m257; T 2 9 m258; T (-5) 9 m259; T (-5) 36 m260; T 8 9 m261; T (-1) 9 m262; T 8 9 m291; T 2 9 m292; T (-1) 9 m293; T (-4) 3 m414; T (-1) 3 m415; T 1 6 m416; T (-1) 1 m536; T (-1) 4 m537; T 2 3 m538; T 1 8 m539; T 1 6 m540; T (-1) 12 m541].
Definition p35 : pref := [T (-455) 23328 m4; T 223 3240 m5; T (-1) 432 m6; T 1 81 m23; T (-1) 36 m82; T (-1) 8 m83; T 1 36 m84; T (-1) 9 m85; T 1 32 m86; T (-1) 72 m88; T 1 36 m90; T 2 9 m91; T 502 729 m93; T (-16) 81 m94; T (-673) 1215 m95; T 2 27 m96; T 32 1215 m97; T (-32) 1215 m98; T (-1) 36 m257; T (-1) 72 m258; T 1 18 m259; T 5 144 m260; T 1 9 m261; T 1 36 m262; T 2 9 m291; T 1 36 m293; T (-1) 72 m294; T (-5) 486 m295; T 64 243 m296; T (-16) 81 m297; T 1 72 m298; T (-1) 3 m414; T (-1) 24 m416; T (-28) 9 m417; T 175 108 m418; T 1 6 m419; T (-1) 2 m536; T (-155) 3888 m537; T 1 3 m538; T 1 24 m540; T (-11) 486 m542; T 52 243 m543; T (-5) 81 m544; T (-52) 243 m545; T 5 81 m546].
Definition p36 : pref := [T (-1) 12 m58; T 35 36 m59; T 2 3 m60; T (-4) 9 m61; T (-8) 9 m62; T 7 18 m63; T 2 3 m64; T 1 3 m65; T 8 9 m66; T 1 18 m67; T (-7) 12 m68; T (-4) 3 m69; T (-1) 3 m70; T 1 6 m71; T (-7) 18 m72; T (-1) 12 m74; T 2 9 m76; T 16 9 m77; T (-14) 9 m78; T (-16) 9 m79; T (-2) 9 m80; T 14 9 m81; T (-1) 6 m248; T 7 6 m249; T (-4) 9 m250; T 7 18 m251; T 4 3 m252; T 1 18 m253; T (-7) 6 m254; T (-4) 3 m255; T 1 6 m256; T 16 9 m290; T (-14) 9 m291; T (-2) 9 m292; T (-8) 3 m413; T 1 1 m414; T 1 6 m416; T 1 1 m524; T 40 9 m525; T (-2) 1 m526; T 1 4 m527; T (-43) 18 m528; T (-2) 1 m529; T (-5) 9 m531; T 1 1 m532; T 1 4 m534].
Definition p37 : pref := [T 7 432 m99; T 6631 29160 m100; T (-4) 81 m101; T 1 3 m102; T (-2) 9 m103; T 680 729 m104; T (-32) 81 m105; T (-4) 9 m106; T (-1) 9 m107; T (-1801) 7290 m108; T 10 81 m109; T (-1441) 1458 m110; T 32 81 m111; T 4 9 m112; T (-1) 96 m113; T (-2581) 29160 m114; T 4 81 m115; T (-629) 7290 m116; T (-10) 81 m117; T 1 18 m118; T 19 864 m119; T 1 18 m120; T (-1) 72 m121; T 64 1215 m122; T 8 9 m123; T 1 9 m124; T (-8) 9 m125; T 64 1215 m126; T (-1) 9 m127; T (-64) 1215 m128; T (-64) 1215 m129; T 1 48 m263; T (-1) 12 m264; T (-2) 9 m265; T (-1) 12 m266; T 2 3 m267; T (-1) 144 m268; T 1 4 m269; T (-2) 3 m270; T 8 9 m299; T 128 243 m300; T (-1) 9 m301; T 1 9 m302; T (-112) 243 m303; T (-1) 72 m304; T 11 243 m305; T (-44) 9 m420; T (-4) 3 m421; T 89 36 m422; T (-1) 6 m423; T 85 216 m424; T (-37) 243 m547; T 521 243 m548; T 104 243 m549; T (-19) 243 m550; T (-208) 243 m551; T (-22) 243 m552; T (-205) 243 m553; T 104 243 m554; T 1 48 m555; T 317 972 m556; T (-1) 1 m557; T (-11) 144 m558; T (-1) 6 m559; T 1 24 m560].
Definition p38 : pref := [T 1 6 m130; T (-4) 3 m131; T 7 6 m132; T (-1) 6 m425; T (-16) 1 m426; T 46 3 m427; T 5 6 m428].
Definition p39 : pref := [T 121 486 m4; T 35 243 m5; T 1 72 m6; T 11 81 m20; T (-1) 81 m21; T (-2) 27 m23; T (-2) 27 m24; T (-190) 243 m95; T 4 27 m96; T 1 24 m294; T (-5) 81 m295; T (-8) 81 m297; T 1 12 m298; T 13 81 m306; T 7 6 m418; T (-7) 6 m419; T (-10) 81 m561].
Definition p40 : pref := [T 4229 1944 m4; T (-431) 972 m5; T (-1) 72 m6; T 25 108 m15; T (-11) 81 m20; T 1 81 m21; T 2 27 m23; T 2 27 m24; T 190 243 m95; T (-4) 27 m96; T (-1) 24 m294; T 5 81 m295; T 8 81 m297; T (-1) 12 m298; T (-13) 81 m306; T (-7) 6 m418; T 91 54 m419; T 10 81 m561].
Definition p41 : pref := [T 1 8 m133; T (-1) 1 m134; T 7 16 m135; T 13 24 m136; T 1 18 m137; T 1 2 m138; T (-7) 6 m139; T (-1) 18 m140; T (-5) 16 m141; T 1 4 m142; T (-15) 16 m143; T 1 4 m144; T 15 16 m145; T (-1) 4 m146; T 3 1 m271; T (-6) 1 m272; T 1 4 m307; T (-1) 1 m308; T (-3) 8 m429; T 9 4 m430; T (-3) 2 m431; T 3 4 m432; T (-21) 8 m433; T 3 2 m434; T (-3) 8 m435; T 3 8 m436; T 4 3 m562; T (-2) 3 m563; T (-17) 12 m564; T 3 8 m565; T 3 4 m566; T (-3) 4 m567].
Definition p42 : pref := [T (-3) 4 m147; T (-3) 4 m273].
Definition p43 : pref := [T (-1) 2 m148; T 1 2 m149; T (-3) 2 m568; T 3 2 m569].
Definition p44 : pref := [T (-5) 8 m26; T 1 2 m149; T (-2) 1 m150; T 11 8 m151; T 1 1 m152; T 5 1 m274; T (-8) 1 m275; T (-2) 1 m309; T 15 1 m437; T (-12) 1 m438; T 3 2 m569].
Definition p45 : pref := [T 1 1 m26; T (-7) 12 m28; T (-1) 36 m29; T (-5) 32 m30; T 1 2 m150; T (-11) 32 m151; T (-1) 4 m152; T (-5) 1 m276; T 8 1 m277; T 1 2 m309; T 7 48 m439; T (-13) 12 m440; T 3 4 m441; T 1 24 m442; T 43 48 m443; T (-3) 4 m444; T (-16) 1 m570; T 36 1 m571; T (-38) 1 m572; T 9 1 m573].
Definition p46 : pref := [T 1 2 m148; T 1 1 m152; T 3 1 m445; T 3 2 m568].
Definition p47 : pref := [T 3 4 m153; T (-7) 6 m154; T (-1) 18 m155; T 1 4 m156; T (-2) 3 m574; T 3 4 m575].
Definition p48 : pref := [T (-19) 12 m26; T 1 18 m27; T (-7) 6 m28; T (-1) 18 m29; T (-15) 16 m157; T 1 4 m158; T 15 16 m159; T (-1) 4 m160; T 1 8 m161; T 1 4 m310; T (-3) 4 m405; T (-3) 8 m446; T 3 8 m447; T (-1) 12 m509; T (-2) 3 m510].
Definition p49 : pref := [T 161 972 m4; T (-581) 486 m5; T 1 72 m6; T 11 81 m20; T (-43) 81 m21; T (-2) 27 m23; T 10 27 m24; T 338 243 m95; T (-8) 27 m96; T 1 24 m294; T 10 81 m295; T 16 81 m297; T (-1) 6 m298; T (-26) 81 m306; T (-7) 3 m418; T 7 3 m419; T 32 81 m561].
Definition p50 : pref := [T 5953 1944 m4; T (-478) 243 m5; T 1 72 m6; T (-47) 108 m15; T 11 81 m20; T (-43) 81 m21; T (-2) 27 m23; T 10 27 m24; T 338 243 m95; T (-8) 27 m96; T 1 24 m294; T 10 81 m295; T 16 81 m297; T (-1) 6 m298; T (-26) 81 m306; T (-7) 3 m418; T 95 27 m419; T 32 81 m561].
Definition p51 : pref := [T (-3) 64 m7; T (-3) 64 m8; T (-1) 32 m9; T 1 16 m10; T (-1) 8 m11; T 3 32 m17].
Definition p52 : pref := [T 3 64 m7; T 3 64 m8; T 1 32 m9; T (-13) 16 m10; T 7 8 m11; T 3 4 m16; T (-27) 32 m17].
Definition p53 : pref := [T (-3) 32 m162; T (-3) 32 m163; T (-1) 16 m312; T 1 2 m313; T (-5) 8 m314; T (-3) 8 m449; T 9 16 m450].
Definition p54 : pref := [T (-1) 27 m4; T 1 27 m5; T (-1) 24 m161; T (-1) 12 m164; T 1 24 m310; T 1 27 m315; T 1 12 m316; T (-1) 27 m317].
Definition p55 : pref := [T (-1) 8 m161; T (-1) 4 m310].
Definition p56 : pref := [T 1 16 m165; T (-1) 8 m318].
Definition p57 : pref := [T (-1) 16 m165; T 1 8 m318].
Definition p58 : pref := [T 4 27 m4; T (-4) 27 m5; T (-1) 12 m161; T 1 3 m164; T 1 12 m310; T (-4) 27 m315; T (-1) 3 m316; T 4 27 m317].
Definition p59 : pref := [T 1 24 m166; T (-179) 108 m167; T 695 216 m168; T (-61) 36 m169; T 4 27 m170; T (-1) 6 m171; T 179 108 m172; T (-307) 108 m173; T 13 9 m174; T (-4) 27 m175; T (-5) 72 m319; T (-25) 18 m320; T 73 24 m321; T (-181) 108 m322; T 4 27 m323; T 4 9 m324; T (-1) 9 m325; T (-7) 6 m326; T 25 27 m327; T (-4) 27 m328; T 47 216 m451; T 43 54 m452; T (-155) 72 m453; T 13 12 m454; T (-16) 27 m455; T 19 27 m456; T 5 18 m457; T (-1) 3 m458].
Definition p60 : pref := [T (-1) 192 m176; T 3 64 m177; T (-5) 64 m178; T 7 192 m179; T (-1) 16 m180; T 277 432 m181; T (-479) 432 m182; T 83 144 m183; T (-2) 27 m184; T 1 96 m329; T (-1) 24 m330; T 3 32 m331; T (-5) 48 m332; T 1 24 m333; T (-1) 24 m334; T 7 18 m335; T (-31) 72 m336; T (-1) 6 m337; T 8 27 m338; T (-2) 27 m339; T (-1) 32 m459; T 1 16 m460; T (-1) 32 m461; T (-8) 27 m462; T 103 216 m463; T (-1) 9 m464; T (-1) 24 m465].
Definition p61 : pref := [T 1 12 m185; T (-29) 27 m186; T 113 54 m187; T (-43) 36 m188; T 4 27 m189; T 13 36 m340; T (-5) 18 m341; T (-3) 4 m342; T 41 54 m343; T (-4) 27 m344; T (-55) 108 m466; T 47 54 m467; T (-5) 36 m468; T (-1) 6 m469].
Definition p62 : pref := [T (-3) 2 m190; T 1 2 m191; T 3 2 m192; T (-1) 2 m193; T (-1) 1 m345; T 1 1 m346; T 1 1 m470; T (-1) 1 m471].
Definition p63 : pref := [T (-1) 16 m9; T 1 8 m10; T (-1) 4 m11; T 3 16 m17; T 1 1 m194; T (-7) 1 m195].
Definition p64 : pref := [T (-1) 16 m9; T 7 8 m10; T (-7) 4 m11; T (-3) 4 m16; T 27 16 m17; T (-7) 32 m196; T (-23) 32 m197].
Definition p65 : pref := [T 1 8 m161].
Definition p66 : pref := [T 1 16 m9; T (-1) 8 m10; T 1 4 m11; T (-3) 16 m17; T (-1) 32 m196; T 7 32 m197].
Definition p67 : pref := [T (-5) 12 m26; T 11 48 m30; T (-9) 32 m165; T (-5) 16 m347; T 3 8 m348; T 1 4 m349; T 5 8 m350; T (-3) 4 m351; T (-5) 16 m472; T 1 8 m473; T 1 4 m576; T (-5) 8 m577; T (-1) 2 m578; T 3 16 m579; T 1 1 m580; T (-1) 2 m581].
Definition p68 : pref := [T 9 1 m198; T 103 1 m199; T (-76) 1 m200; T (-22) 1 m201; T 22 1 m202; T (-1) 16 m352; T 1 16 m353; T 1 8 m354; T 1 4 m355; T (-1) 4 m356; T 5 8 m357; T (-3) 4 m358; T 1 8 m474; T 1 16 m475; T (-9) 16 m476; T (-1) 8 m477; T 1 8 m478; T 3 8 m479; T (-1) 4 m576; T 5 8 m577; T 1 2 m578; T (-3) 16 m579; T (-1) 1 m580; T 1 2 m581].
Definition p69 : pref := [T (-7) 96 m203; T 1 3 m204; T (-5) 24 m205; T (-5) 16 m359; T 3 8 m360; T (-1) 4 m361; T 3 16 m480; T (-3) 4 m582; T 5 4 m583; T 1 1 m584; T (-5) 16 m585; T (-13) 8 m586; T 5 8 m587].
Definition p70 : pref := [T (-5) 8 m206; T 3 8 m362; T (-3) 8 m363; T (-3) 4 m364; T 3 4 m365; T (-3) 8 m481; T 3 8 m482].
Definition p71 : pref := [T 1 2 m207; T 7 32 m208; T (-1) 4 m209; T (-1) 8 m210; T 3 16 m278; T (-3) 8 m279; T 1 2 m366; T (-1) 2 m367; T (-1) 2 m368; T 1 2 m369; T (-3) 16 m370; T 3 8 m371; T (-15) 16 m483; T 3 4 m484; T 3 4 m485; T (-3) 4 m486; T (-3) 8 m588].
Definition p72 : pref := [T 3 4 m211; T (-55) 24 m212; T 7 6 m213; T 5 12 m214; T (-5) 12 m215; T (-5) 8 m372; T 3 4 m373; T (-1) 2 m374; T 5 8 m375; T (-3) 4 m376; T 1 2 m377; T (-11) 8 m487; T 13 4 m488; T (-3) 2 m489; T 1 1 m490; T (-23) 8 m491; T 3 2 m492; T 3 2 m589; T (-5) 2 m590; T 5 8 m591; T 13 4 m592; T (-5) 4 m593; T (-1) 1 m606].
Definition p73 : pref := [T 1 8 m165].
Definition p74 : pref := [T 1 4 m165; T 1 2 m318].
Definition p75 : pref := [T 1 4 m216; T 1 2 m378].
Definition p76 : pref := [T 1 64 m7; T 1 64 m8; T 1 96 m9; T (-1) 48 m10; T 1 24 m11; T (-1) 32 m17; T (-1) 16 m217; T (-1) 16 m218; T (-1) 24 m379; T 1 12 m380; T (-1) 6 m381; T 1 8 m493].
Definition p77 : pref := [T (-5) 192 m176; T (-2459) 1728 m177; T 5101 1728 m178; T (-919) 576 m179; T 5 48 m180; T 311 432 m181; T (-769) 432 m182; T 151 144 m183; T (-4) 27 m184; T 4 27 m219; T (-7) 96 m329; T 2 9 m330; T (-517) 288 m331; T 157 48 m332; T (-371) 216 m333; T 7 24 m334; T (-13) 18 m335; T 109 72 m336; T (-25) 12 m337; T 59 54 m338; T (-4) 27 m339; T 4 27 m382; T 661 864 m459; T (-301) 144 m460; T 101 96 m461; T (-16) 27 m462; T 179 216 m463; T 1 36 m464; T (-5) 24 m465; T 47 216 m494].
Definition p78 : pref := [T 1 4 m220; T 103 54 m221; T (-475) 108 m222; T 115 54 m223; T (-1) 1 m224; T 59 54 m225; T 35 54 m226; T (-17) 27 m227; T 29 12 m384; T (-9) 2 m385; T 67 36 m386; T 1 9 m387; T (-5) 3 m388; T 3 1 m389; T (-1) 9 m390; T (-29) 12 m496; T 9 2 m497; T (-67) 36 m498; T (-1) 9 m499; T 5 3 m500; T (-3) 1 m501; T 1 9 m502; T (-5) 9 m600; T 5 9 m605].
Definition p79 : pref := [T 1 36 m228; T (-1) 18 m229; T 1 36 m394; T (-1) 18 m395; T (-1) 9 m596; T (-1) 9 m602].
Definition p80 : pref := [T 1 4 m161; T 1 2 m310].
Definition p81 : pref := [T 1 2 m207; T 1 2 m398].
Definition p82 : pref := [T (-1) 24 m161; T 1 6 m164].
Definition p83 : pref := [T 1 24 m161; T (-1) 6 m164].
Definition p84 : pref := [T 1 96 m7; T (-7) 96 m8; T (-1) 48 m9; T 1 24 m10; T (-1) 12 m11; T 1 16 m17; T (-1) 24 m217; T 7 24 m218; T 1 12 m379; T (-1) 6 m380; T 1 3 m381; T (-1) 4 m493].
Definition p85 : pref := [T (-1) 24 m230; T (-1) 8 m231; T 1 12 m232; T (-1) 6 m399; T 1 12 m400; T 1 6 m503; T (-1) 12 m504].
Definition p86 : pref := [T (-1) 12 m233; T (-1) 4 m234; T 1 6 m235; T 1 12 m236; T 1 4 m237; T (-1) 6 m238; T (-1) 3 m401; T 1 6 m402; T 1 3 m403; T (-1) 6 m404; T 1 3 m505; T (-1) 6 m506; T (-1) 3 m507; T 1 6 m508].
Definition p87 : pref := [T 1 24 m294; T 1 27 m295; T 1 12 m298; T (-1) 27 m306].
Definition p88 : pref := [T (-1) 24 m294; T 1 27 m295; T (-1) 12 m298; T (-1) 27 m306].
Definition p89 : pref := [T (-3) 1 m311; T 3 1 m448].
Definition p90 : pref := [T 1 24 m294; T (-2) 27 m295; T (-1) 6 m298; T 2 27 m306].
Definition p91 : pref := [T (-1) 24 m294; T 2 27 m295; T 1 6 m298; T (-2) 27 m306].
Definition p92 : pref := [T (-1) 24 m294; T (-2) 27 m295; T 1 6 m298; T 2 27 m306].
Definition p93 : pref := [T 1 6 m383; T (-1) 6 m495].
Definition p94 : pref := [T (-1) 36 m294; T 1 81 m295; T (-8) 81 m297; T 1 18 m298; T 7 81 m306; T 2 9 m391].
Definition p95 : pref := [T 1 36 m294; T (-1) 81 m295; T 8 81 m297; T (-1) 18 m298; T (-7) 81 m306; T (-2) 9 m391].
Definition p96 : pref := [T 1 36 m294; T 1 81 m295; T (-8) 81 m297; T (-1) 18 m298; T 7 81 m306; T (-2) 9 m391].
Definition p97 : pref := [T (-11) 27 m392; T (-13) 216 m393; T 2 81 m594; T (-2) 81 m595; T 8 27 m601].
Definition p98 : pref := [T (-5) 108 m396; T (-19) 108 m397; T (-4) 81 m597; T (-4) 81 m598; T 8 81 m599; T (-16) 27 m603; T 19 27 m604].
Definition p99 : pref := [T 1 4 m405; T (-1) 4 m509].
Definition p100 : pref := [T (-15) 4 m4; T (-3) 2 m15; T 1 1 m23].
Definition p101 : pref := [T 43 12 m4; T 7 3 m5; T (-5) 12 m6; T 3 2 m15; T 1 3 m20; T 4 3 m21; T (-1) 6 m22; T (-2) 9 m23; T 1 9 m24; T 1 9 m25].
Definition p102 : pref := [T 131 1296 m143; T 1 36 m144; T (-1) 6 m435; T (-1) 120 m607; T 305 324 m608; T (-2) 9 m609; T 121 648 m610; T (-1) 18 m611; T (-11) 216 m754; T 13 54 m755; T 11 108 m756].
Definition p103 : pref := [T 121 2592 m157; T (-1) 72 m158; T 305 648 m612; T (-1) 9 m613; T 11 432 m757; T 13 108 m758].
Definition p104 : pref := [T 305 324 m614; T (-2) 9 m615; T 121 1296 m616; T (-1) 36 m617; T 13 54 m759; T 11 216 m760].
Definition p105 : pref := [T (-121) 432 m157; T 1 12 m158; T (-163) 216 m618; T 1 6 m619; T (-11) 72 m757; T (-5) 36 m761].
Definition p106 : pref := [T 205 432 m157; T (-1) 12 m158; T (-1) 6 m446; T 163 216 m618; T (-1) 6 m619; T 11 72 m757; T 5 36 m761].
Definition p107 : pref := [T 7 8 m32; T 13 12 m33; T 1 9 m34; T 1 1 m35; T (-7) 3 m43; T (-1) 9 m44; T (-5) 8 m46; T 1 2 m48; T (-2) 1 m49; T 1 2 m280; T (-2) 1 m281; T 1 4 m620; T 15 8 m621; T (-1) 2 m622; T 3 4 m660; T (-3) 2 m661; T (-3) 4 m708; T 9 2 m709; T (-3) 1 m710; T 3 2 m711; T (-21) 4 m712; T 3 1 m713; T 3 4 m714; T 8 3 m762; T (-4) 3 m763; T (-17) 6 m764; T 3 4 m765; T 3 2 m766; T (-3) 2 m767].
Definition p108 : pref := [T (-3) 2 m55; T (-3) 2 m245].
Definition p109 : pref := [T (-1) 1 m88; T 1 1 m89; T (-3) 1 m768; T 3 1 m769].
Definition p110 : pref := [T (-5) 4 m4; T 11 4 m82; T 2 1 m83; T 1 1 m89; T (-4) 1 m90; T (-4) 1 m293; T 5 1 m662; T (-8) 1 m663; T 15 1 m715; T (-12) 1 m716; T 3 1 m769].
Definition p111 : pref := [T 2 1 m4; T (-7) 6 m5; T (-5) 16 m6; T (-1) 18 m24; T (-11) 16 m82; T (-1) 2 m83; T 1 1 m90; T 1 1 m293; T (-5) 8 m664; T 1 1 m665; T 7 24 m717; T (-13) 6 m718; T 3 2 m719; T 1 12 m720; T 43 24 m721; T (-3) 2 m722; T (-3) 2 m770; T 2 3 m771; T 19 12 m772; T (-3) 8 m773].
Definition p112 : pref := [T 2 1 m83; T 1 1 m88; T 6 1 m416; T 3 1 m768].
Definition p113 : pref := [T 3 2 m623; T (-7) 3 m624; T (-1) 9 m625; T 1 2 m626; T (-4) 3 m774; T 3 2 m775].
Definition p114 : pref := [T (-19) 6 m4; T (-7) 3 m5; T (-3) 2 m15; T (-1) 6 m20; T (-4) 3 m21; T 1 9 m23; T (-1) 9 m24; T 1 2 m294; T 15 8 m627; T (-1) 2 m628; T 1 4 m629; T 3 4 m723].
Definition p115 : pref := [T (-121) 432 m157; T 1 12 m158; T 71 54 m618; T (-1) 3 m619; T (-11) 72 m757; T 4 9 m761].
Definition p116 : pref := [T (-37) 432 m157; T 1 12 m158; T (-1) 6 m446; T 71 54 m618; T (-1) 3 m619; T (-11) 72 m757; T 4 9 m761].
Definition p117 : pref := [T (-3) 16 m7; T (-3) 16 m8; T (-1) 8 m9; T 1 1 m10; T (-5) 4 m11; T (-3) 4 m16; T 9 8 m17].
Definition p118 : pref := [T (-1) 24 m0; T 1 24 m157].
Definition p119 : pref := [T (-1) 2 m294; T (-1) 4 m629].
Definition p120 : pref := [T 1 8 m161; T (-1) 4 m310].
Definition p121 : pref := [T (-1) 8 m161; T 1 4 m310].
Definition p122 : pref := [T (-1) 12 m0; T 1 12 m157].
Definition p123 : pref := [T (-7) 96 m630; T 35 96 m631; T (-7) 16 m632; T 1 12 m633; T 3 16 m668; T (-1) 3 m669; T 1 12 m670; T 1 12 m724; T (-1) 3 m725; T 5 16 m726].
Definition p124 : pref := [T (-5) 6 m4; T 11 24 m6; T (-9) 16 m161; T (-5) 8 m671; T 3 4 m672; T 1 2 m673; T 5 4 m674; T (-3) 2 m675; T (-5) 8 m727; T 1 4 m728; T 1 2 m776; T (-5) 4 m777; T (-1) 1 m778; T 3 8 m779; T 2 1 m780; T (-1) 1 m781].
Definition p125 : pref := [T 3 16 m196; T 103 48 m197; T (-19) 12 m634; T (-11) 24 m635; T 11 24 m636; T (-1) 8 m676; T 1 8 m677; T 1 4 m678; T 1 2 m679; T (-1) 2 m680; T 5 4 m681; T (-3) 2 m682; T 1 4 m729; T 1 8 m730; T (-9) 8 m731; T (-1) 4 m732; T 1 4 m733; T 3 4 m734; T (-1) 2 m776; T 5 4 m777; T 1 1 m778; T (-3) 8 m779; T (-2) 1 m780; T 1 1 m781].
Definition p126 : pref := [T (-7) 48 m637; T (-5) 12 m638; T (-5) 8 m683; T 3 4 m684; T (-1) 2 m685; T 3 8 m735; T (-3) 2 m782; T 5 2 m783; T (-5) 8 m784; T (-13) 4 m785; T 5 4 m786; T 1 3 m793; T 1 1 m795].
Definition p127 : pref := [T (-5) 4 m639; T (-3) 2 m686; T 3 2 m687; T (-3) 4 m688; T 3 1 m736].
Definition p128 : pref := [T 1 1 m228; T (-3) 8 m366; T 3 4 m368; T 7 16 m640; T (-1) 2 m641; T (-1) 4 m642; T 3 8 m666; T (-3) 4 m667; T 1 1 m689; T (-1) 1 m690; T (-1) 1 m691; T 1 1 m692; T (-15) 8 m737; T 3 2 m738; T 3 2 m739; T (-3) 2 m740; T (-3) 4 m787].
Definition p129 : pref := [T 3 2 m643; T (-55) 12 m644; T 7 3 m645; T 5 6 m646; T (-5) 6 m647; T (-5) 4 m693; T 3 2 m694; T (-1) 1 m695; T 5 4 m696; T (-3) 2 m697; T 1 1 m698; T (-11) 4 m741; T 13 2 m742; T (-3) 1 m743; T (-23) 4 m744; T 3 1 m745; T 3 1 m788; T (-5) 1 m789; T 5 4 m790; T 13 2 m791; T (-5) 2 m792; T 1 1 m794; T (-2) 1 m796].
Definition p130 : pref := [T 1 4 m161].
Definition p131 : pref := [T 1 2 m161; T 1 1 m310].
Definition p132 : pref := [T 1 2 m648; T 1 1 m699].
Definition p133 : pref := [T (-7) 96 m649; T 35 96 m650; T (-7) 16 m651; T 1 12 m652; T 3 16 m700; T (-1) 3 m701; T 1 12 m702; T 1 12 m746; T (-1) 3 m747; T 5 16 m748].
Definition p134 : pref := [T 5 48 m653; T (-19) 48 m654; T 5 12 m655; T (-1) 8 m704; T 1 4 m705; T 1 8 m750; T (-1) 4 m751].
Definition p135 : pref := [T 1 24 m656].
Definition p136 : pref := [T 1 1 m294; T 1 2 m629].
Definition p137 : pref := [T 1 1 m228; T 1 1 m394].
Definition p138 : pref := [T (-1) 16 m657; T (-3) 16 m658; T 1 8 m659; T (-1) 4 m706; T 1 8 m707; T 1 4 m752; T (-1) 8 m753].
Definition p139 : pref := [T (-1) 48 m0].
Definition p140 : pref := [T (-3) 4 m14; T 3 4 m18].
Definition p141 : pref := [T 1 1 m703; T (-1) 4 m749].
Definition p142 : pref := [T 1 2 m15; T (-1) 2 m20].
Definition p143 : pref := [T (-5) 24 m4; T (-5) 24 m5; T (-5) 96 m6; T (-1) 12 m20; T (-1) 12 m21; T (-1) 48 m22; T 1 18 m23; T 1 18 m24; T 1 72 m25].
Definition p144 : pref := [T (-11) 24 m4; T (-5) 24 m5; T (-5) 96 m6; T (-1) 12 m20; T (-1) 12 m21; T (-1) 48 m22; T 11 36 m23; T 1 18 m24; T 1 72 m25].
Definition p145 : pref := [T 7 576 m32; T (-1204) 3645 m33; T 1 162 m34; T 1 24 m35; T 128 729 m36; T (-2) 81 m37; T 7 144 m38; T 13 135 m39; T 1 18 m41; T 7 144 m42; T 371 19440 m43; T 1 54 m44; T 1 18 m45; T (-13) 1728 m46; T 1 36 m47; T 1 144 m48; T (-1) 36 m49; T (-8) 1215 m50; T (-1) 9 m51; T (-8) 1215 m52; T (-1) 9 m53; T 16 1215 m54; T 1 96 m239; T (-1) 12 m240; T 1 24 m241; T 1 24 m242; T (-1) 12 m243; T (-1) 48 m244; T 1 144 m280; T (-1) 36 m281; T (-5) 243 m282; T (-16) 243 m283; T 1 36 m284; T (-1) 9 m285; T 2 27 m286; T 1 36 m287; T (-1) 9 m288; T 1 81 m289; T 19 432 m406; T 1 24 m407; T 7 9 m408; T (-49) 108 m409; T 1 6 m410; T (-5) 9 m411; T 1 6 m412; T (-11) 972 m512; T 103 648 m513; T 11 243 m514; T (-11) 243 m516; T (-11) 324 m517; T 265 1944 m519; T (-1) 12 m520; T 1 32 m521; T (-1) 12 m522; T (-1) 48 m523; T (-131) 5184 m621; T (-1) 144 m622; T 1 24 m714; T 1 480 m797; T 121 1296 m798; T (-1) 36 m799; T 121 1296 m800; T (-1) 36 m801; T 11 864 m876; T 11 216 m877; T 11 216 m878].
Definition p146 : pref := [T (-1) 48 m55; T (-1) 12 m56; T (-1) 12 m57; T (-1) 48 m245; T (-1) 12 m246; T (-1) 12 m247].
Definition p147 : pref := [T (-1) 12 m58; T 5 36 m59; T 1 18 m60; T (-1) 9 m61; T (-2) 9 m62; T 1 18 m63; T 1 6 m64; T 1 9 m65; T 2 9 m66; T 1 18 m67; T (-1) 12 m68; T (-2) 9 m69; T (-1) 9 m70; T 13 72 m71; T (-1) 18 m72; T 1 72 m73; T (-7) 72 m74; T (-1) 72 m75; T 2 9 m76; T 4 9 m77; T (-2) 9 m78; T (-4) 9 m79; T (-2) 9 m80; T 2 9 m81; T (-1) 6 m248; T 1 6 m249; T (-1) 9 m250; T 1 18 m251; T 1 3 m252; T 1 18 m253; T (-1) 6 m254; T (-1) 3 m255; T 1 6 m256; T 4 9 m290; T (-2) 9 m291; T (-2) 9 m292; T (-2) 3 m413; T 1 3 m414; T 1 3 m415; T 1 6 m524; T 10 9 m525; T (-1) 2 m526; T 7 24 m527; T (-7) 18 m528; T (-1) 2 m529; T 1 24 m530; T (-23) 36 m531; T 1 6 m532; T (-1) 12 m533; T 7 24 m534; T 1 24 m535].
Definition p148 : pref := [T (-5) 72 m4; T (-5) 72 m5; T (-5) 288 m6; T 11 288 m82; T 1 12 m83; T 11 72 m84; T 1 9 m85; T 11 72 m86; T 1 9 m87; T 1 18 m88; T 1 72 m89; T (-1) 18 m90; T (-2) 9 m91; T (-2) 9 m92; T 5 144 m257; T (-2) 9 m258; T 5 36 m259; T 5 36 m260; T (-2) 9 m261; T (-1) 18 m262; T (-2) 9 m291; T (-2) 9 m292; T (-1) 18 m293; T 1 3 m414; T 1 3 m415; T 1 12 m416; T 1 4 m536; T 1 4 m537; T (-1) 6 m538; T 1 16 m539; T (-1) 6 m540; T (-1) 24 m541].
Definition p149 : pref := [T (-271) 23328 m4; T 181 6480 m5; T (-1) 864 m6; T (-1) 324 m23; T (-1) 72 m82; T 1 48 m83; T (-1) 144 m84; T 1 36 m85; T (-1) 32 m86; T 1 72 m88; T 1 72 m90; T (-1) 18 m91; T 128 729 m93; T (-2) 81 m94; T 13 135 m95; T (-8) 1215 m97; T 8 1215 m98; T (-1) 72 m257; T 1 72 m258; T (-1) 72 m259; T (-5) 144 m260; T (-1) 36 m261; T 1 72 m262; T (-1) 18 m291; T 1 72 m293; T (-1) 144 m294; T 5 486 m295; T (-16) 243 m296; T 1 27 m297; T (-1) 72 m298; T 1 12 m414; T (-1) 48 m416; T 7 9 m417; T (-7) 27 m418; T (-1) 12 m419; T 1 8 m536; T 221 3888 m537; T (-1) 12 m538; T (-1) 24 m540; T 11 1944 m542; T 11 243 m543; T (-11) 243 m545; T (-121) 10368 m627; T 1 288 m628; T 121 2592 m802; T (-1) 72 m803; T (-11) 1728 m879; T 11 432 m880].
Definition p150 : pref := [T 1 12 m58; T (-1) 18 m59; T (-1) 6 m60; T 1 9 m61; T 2 9 m62; T (-1) 18 m63; T (-1) 6 m64; T (-2) 9 m66; T (-1) 18 m67; T 1 12 m68; T 1 3 m69; T (-1) 8 m71; T (-1) 36 m72; T 1 24 m74; T (-2) 9 m76; T (-4) 9 m77; T 2 9 m78; T 4 9 m79; T 2 9 m80; T (-2) 9 m81; T 1 6 m248; T (-1) 6 m249; T 1 9 m250; T (-1) 18 m251; T (-1) 3 m252; T (-1) 18 m253; T 1 6 m254; T 1 3 m255; T (-1) 6 m256; T (-4) 9 m290; T 2 9 m291; T 2 9 m292; T 2 3 m413; T 1 12 m416; T (-10) 9 m525; T 1 2 m526; T (-1) 8 m527; T 1 18 m528; T 1 2 m529; T 11 36 m531; T (-1) 8 m534].
Definition p151 : pref := [T (-7) 432 m99; T 1327 58320 m100; T (-1) 162 m101; T (-1) 12 m102; T 1 18 m103; T 337 729 m104; T (-4) 81 m105; T 1 9 m106; T 7 144 m107; T 1793 14580 m108; T (-1) 81 m109; T (-593) 1458 m110; T 4 81 m111; T (-1) 9 m112; T 1 96 m113; T (-461) 29160 m114; T 1 162 m115; T (-289) 7290 m116; T 1 81 m117; T (-1) 18 m118; T (-1) 864 m119; T (-1) 18 m120; T (-1) 144 m121; T (-16) 1215 m122; T (-2) 9 m123; T (-1) 9 m124; T 2 9 m125; T (-16) 1215 m126; T 1 9 m127; T 16 1215 m128; T 16 1215 m129; T (-1) 48 m263; T 1 12 m264; T 1 18 m265; T 1 24 m266; T (-1) 6 m267; T 1 144 m268; T (-1) 8 m269; T 1 6 m270; T (-2) 9 m299; T (-32) 243 m300; T 1 36 m301; T (-1) 9 m302; T 19 243 m303; T 1 72 m304; T 4 243 m305; T 11 9 m420; T 1 3 m421; T (-11) 36 m422; T 1 6 m423; T (-55) 216 m424; T 449 1944 m547; T (-259) 486 m548; T 22 243 m549; T 11 486 m550; T (-44) 243 m551; T (-11) 972 m552; T 199 972 m553; T 22 243 m554; T 1 24 m555; T (-751) 1944 m556; T 1 4 m557; T (-7) 144 m558; T 1 6 m559; T 1 48 m560; T 121 1296 m804; T (-1) 36 m805; T 121 2592 m806; T (-1) 72 m807; T 11 216 m881; T 11 432 m882].
Definition p152 : pref := [T (-1) 6 m130; T 1 3 m131; T (-1) 6 m132; T 1 6 m425; T 4 1 m426; T (-7) 3 m427; T (-11) 6 m428].
Definition p153 : pref := [T (-5) 243 m4; T (-67) 1944 m5; T 1 144 m6; T (-11) 324 m20; T (-11) 324 m21; T 1 54 m23; T 1 54 m24; T 229 972 m95; T (-1) 27 m96; T 1 48 m294; T (-5) 162 m295; T (-4) 81 m297; T 1 24 m298; T 13 162 m306; T 7 12 m418; T (-7) 12 m419; T 11 162 m561; T 121 1728 m627; T (-1) 48 m628; T 121 864 m808; T (-1) 24 m809; T 11 288 m879; T 11 144 m883].
Definition p154 : pref := [T (-2045) 3888 m4; T 77 486 m5; T 1 144 m6; T (-17) 216 m15; T (-11) 324 m20; T (-11) 324 m21; T 1 54 m23; T 1 54 m24; T 229 972 m95; T (-1) 27 m96; T 1 48 m294; T (-5) 162 m295; T (-4) 81 m297; T 1 24 m298; T 13 162 m306; T 7 12 m418; T (-95) 108 m419; T 11 162 m561; T 37 1728 m627; T (-1) 48 m628; T 1 24 m723; T 121 864 m808; T (-1) 24 m809; T 11 288 m879; T 11 144 m883].
Definition p155 : pref := [T 131 5184 m143; T 1 144 m144; T (-1) 24 m435; T (-1) 480 m607; T (-121) 1296 m608; T 1 36 m609; T (-121) 1296 m610; T 1 36 m611; T (-11) 864 m754; T (-11) 216 m755; T (-11) 216 m756].
Definition p156 : pref := [T 121 10368 m157; T (-1) 288 m158; T (-121) 2592 m612; T 1 72 m613; T 11 1728 m757; T (-11) 432 m758].
Definition p157 : pref := [T (-121) 1296 m614; T 1 36 m615; T (-121) 2592 m616; T 1 72 m617; T (-11) 216 m759; T (-11) 432 m760].
Definition p158 : pref := [T (-121) 1728 m157; T 1 48 m158; T (-121) 864 m618; T 1 24 m619; T (-11) 288 m757; T (-11) 144 m761].
Definition p159 : pref := [T (-37) 1728 m157; T 1 48 m158; T (-1) 24 m446; T (-121) 864 m618; T 1 24 m619; T (-11) 288 m757; T (-11) 144 m761].
Definition p160 : pref := [T (-3) 128 m7; T (-3) 128 m8; T (-1) 64 m9; T 1 32 m10; T (-1) 16 m11; T 3 64 m17].
Definition p161 : pref := [T (-1) 27 m4; T 1 27 m5; T (-1) 24 m161; T (-1) 12 m164; T 1 24 m310; T 1 27 m315; T 1 12 m316; T (-1) 27 m317; T (-1) 48 m627; T 1 48 m843].
Definition p162 : pref := [T (-1) 48 m0; T 1 48 m157].
Definition p163 : pref := [T 1 48 m166; T 17 432 m167; T (-4) 27 m168; T 1 9 m169; T (-1) 27 m170; T 1 24 m171; T (-179) 432 m172; T 307 432 m173; T (-13) 36 m174; T 1 27 m175; T (-11) 144 m319; T 25 72 m320; T (-23) 48 m321; T 25 108 m322; T (-1) 27 m323; T (-1) 9 m324; T 1 36 m325; T 7 24 m326; T (-25) 108 m327; T 1 27 m328; T 17 432 m451; T (-43) 216 m452; T 37 144 m453; T (-1) 12 m454; T 4 27 m455; T (-19) 108 m456; T (-5) 72 m457; T 1 12 m458; T 7 384 m810; T (-35) 384 m811; T 7 64 m812; T (-1) 48 m813; T (-3) 64 m844; T 1 12 m845; T (-1) 48 m846; T (-1) 48 m862; T 1 12 m863; T (-5) 64 m864].
Definition p164 : pref := [T (-1) 384 m176; T 3 128 m177; T (-5) 128 m178; T 7 384 m179; T 1 64 m180; T (-277) 1728 m181; T 479 1728 m182; T (-83) 576 m183; T 1 54 m184; T 1 192 m329; T (-1) 48 m330; T 3 64 m331; T (-5) 96 m332; T 1 48 m333; T 1 96 m334; T (-7) 72 m335; T 31 288 m336; T 1 24 m337; T (-2) 27 m338; T 1 54 m339; T (-1) 64 m459; T 1 32 m460; T (-1) 64 m461; T 2 27 m462; T (-103) 864 m463; T 1 36 m464; T 1 96 m465].
Definition p165 : pref := [T (-13) 144 m340; T 5 72 m341; T 3 16 m342; T (-41) 216 m343; T 1 27 m344; T 55 432 m466; T (-47) 216 m467; T 5 144 m468; T 1 24 m469; T 1 48 m814; T (-29) 108 m815; T 113 216 m816; T (-43) 144 m817; T 1 27 m818].
Definition p166 : pref := [T 3 8 m190; T (-1) 8 m191; T (-3) 8 m192; T 1 8 m193; T 1 4 m345; T (-1) 4 m346; T (-1) 4 m470; T 1 4 m471].
Definition p167 : pref := [T (-1) 32 m9; T 1 16 m10; T (-1) 8 m11; T 3 32 m17; T 1 1 m819; T (-7) 1 m820].
Definition p168 : pref := [T 1 32 m9; T (-7) 16 m10; T 1 8 m11; T 3 8 m16; T (-3) 32 m17; T 7 1 m819; T (-25) 1 m820].
Definition p169 : pref := [T 1 16 m161].
Definition p170 : pref := [T (-1) 16 m161].
Definition p171 : pref := [T 1 32 m9; T (-1) 16 m10; T 1 8 m11; T (-3) 32 m17; T (-1) 64 m196; T 7 64 m197].
Definition p172 : pref := [T (-1) 64 m312; T 1 32 m313; T (-1) 16 m314; T 3 64 m450; T 1 1 m821; T (-7) 1 m822].
Definition p173 : pref := [T (-7) 384 m630; T 35 384 m631; T (-7) 64 m632; T 1 48 m633; T 3 64 m668; T (-1) 12 m669; T 1 48 m670; T 1 48 m724; T (-1) 12 m725; T 5 64 m726].
Definition p174 : pref := [T (-7) 384 m649; T 35 384 m650; T (-7) 64 m651; T 1 48 m652; T 3 64 m700; T (-1) 12 m701; T 1 48 m702; T 1 48 m746; T (-1) 12 m747; T 5 64 m748].
Definition p175 : pref := [T 5 192 m653; T (-19) 192 m654; T 5 48 m655; T (-1) 32 m704; T 1 16 m705; T 1 32 m750; T (-1) 16 m751].
Definition p176 : pref := [T 1 128 m7; T 1 128 m8; T 1 192 m9; T (-1) 96 m10; T 1 48 m11; T (-1) 64 m17; T 1 64 m217; T 1 64 m218; T 1 96 m379; T (-1) 48 m380; T 1 24 m381; T (-1) 32 m493].
Definition p177 : pref := [T (-5) 384 m176; T 541 3456 m177; T (-971) 3456 m178; T 185 1152 m179; T (-5) 192 m180; T (-311) 1728 m181; T 769 1728 m182; T (-151) 576 m183; T 1 27 m184; T (-1) 27 m219; T (-7) 192 m329; T 5 72 m330; T 83 576 m331; T (-35) 96 m332; T 91 432 m333; T (-7) 96 m334; T 13 72 m335; T (-109) 288 m336; T 25 48 m337; T (-59) 216 m338; T 1 27 m339; T (-1) 27 m382; T (-371) 1728 m459; T 83 288 m460; T (-19) 192 m461; T 4 27 m462; T (-179) 864 m463; T (-1) 144 m464; T 5 96 m465; T 17 432 m494; T 7 384 m823; T (-35) 384 m824; T 7 64 m825; T (-1) 48 m826; T (-3) 64 m848; T 1 12 m849; T (-1) 48 m850; T (-1) 48 m865; T 1 12 m866; T (-5) 64 m867].
Definition p178 : pref := [T 1 8 m220; T (-103) 216 m221; T 29 54 m222; T (-17) 108 m223; T 1 4 m224; T (-59) 216 m225; T (-35) 216 m226; T 17 108 m227; T (-1) 24 m384; T 7 72 m386; T (-1) 36 m387; T 5 12 m388; T (-3) 4 m389; T 1 36 m390; T 1 24 m496; T (-7) 72 m498; T 1 36 m499; T (-5) 12 m500; T 3 4 m501; T (-1) 36 m502; T (-5) 192 m827; T 19 192 m828; T (-5) 48 m829; T 1 32 m853; T (-1) 16 m854; T 5 18 m855; T (-1) 32 m869; T 1 16 m870; T (-5) 18 m871].
Definition p179 : pref := [T 1 64 m9; T (-1) 32 m10; T 1 16 m11; T (-3) 64 m17; T (-1) 128 m196; T 7 128 m197].
Definition p180 : pref := [T 5 108 m392; T 13 216 m393; T (-2) 27 m601; T (-1) 81 m830; T 1 81 m831].
Definition p181 : pref := [T (-1) 96 m832].
Definition p182 : pref := [T 1 72 m228; T 1 18 m229; T 1 72 m394; T 1 18 m395; T 1 18 m833; T 1 18 m856].
Definition p183 : pref := [T 1 96 m656].
Definition p184 : pref := [T (-1) 48 m161; T (-1) 24 m164].
Definition p185 : pref := [T 1 48 m161; T 1 24 m164].
Definition p186 : pref := [T 1 192 m7; T (-7) 192 m8; T (-1) 96 m9; T 1 48 m10; T (-1) 24 m11; T 1 32 m17; T 1 96 m217; T (-7) 96 m218; T (-1) 48 m379; T 1 24 m380; T (-1) 12 m381; T 1 16 m493].
Definition p187 : pref := [T 1 96 m230; T 1 32 m231; T (-1) 48 m232; T 1 24 m399; T (-1) 48 m400; T (-1) 24 m503; T 1 48 m504].
Definition p188 : pref := [T 1 64 m834; T 3 64 m835; T (-1) 32 m836; T 1 16 m858; T (-1) 32 m859; T (-1) 16 m872; T 1 32 m873].
Definition p189 : pref := [T 1 48 m233; T 1 16 m234; T (-1) 24 m235; T (-1) 48 m236; T (-1) 16 m237; T 1 24 m238; T 1 12 m401; T (-1) 24 m402; T (-1) 12 m403; T 1 24 m404; T (-1) 12 m505; T 1 24 m506; T 1 12 m507; T (-1) 24 m508].
Definition p190 : pref := [T (-1) 64 m657; T (-3) 64 m658; T 1 32 m659; T (-1) 16 m706; T 1 32 m707; T 1 16 m752; T (-1) 32 m753].
Definition p191 : pref := [T (-1) 32 m837; T 11 32 m838; T (-1) 8 m839; T 3 16 m860; T (-3) 16 m874].
Definition p192 : pref := [T (-3) 16 m233; T (-3) 16 m234; T (-3) 8 m401; T 3 8 m505].
Definition p193 : pref := [T (-1) 32 m840; T 11 32 m841; T (-1) 8 m842; T 3 16 m861; T (-3) 16 m875].
Definition p194 : pref := [T 1 48 m294; T 1 54 m295; T 1 24 m298; T (-1) 54 m306].
Definition p195 : pref := [T (-1) 48 m294; T (-1) 54 m295; T (-1) 24 m298; T 1 54 m306].
Definition p196 : pref := [T (-1) 48 m294; T 1 54 m295; T (-1) 24 m298; T (-1) 54 m306].
Definition p197 : pref := [T 1 192 m843].
Definition p198 : pref := [T (-1) 192 m0].
Definition p199 : pref := [T (-1) 16 m749; T 1 16 m847].
Definition p200 : pref := [T 1 24 m495; T (-1) 24 m851].
Definition p201 : pref := [T (-1) 1 m852; T 1 1 m868].
Definition p202 : pref := [T (-1) 72 m294; T (-1) 81 m295; T 2 81 m297; T (-1) 18 m298; T (-1) 81 m306; T (-1) 18 m391].
Definition p203 : pref := [T 1 72 m294; T 1 81 m295; T (-2) 81 m297; T 1 18 m298; T 1 81 m306; T 1 18 m391].
Definition p204 : pref := [T 1 72 m294; T (-1) 81 m295; T 2 81 m297; T 1 18 m298; T (-1) 81 m306; T 1 18 m391].
Definition p205 : pref := [T 5 108 m396; T (-11) 108 m397; T 1 81 m597; T 1 81 m598; T (-2) 81 m599; T 4 27 m603; T (-13) 54 m857].
Definition p206 : pref := [T (-5) 4 m5; T 5 16 m6; T (-1) 2 m21; T 1 8 m22; T 1 3 m24; T (-1) 12 m25].
Definition p207 : pref := [T (-1) 2 m4; T (-5) 4 m5; T 5 16 m6; T (-1) 2 m21; T 1 8 m22; T 1 2 m23; T 1 3 m24; T (-1) 12 m25].
Definition p208 : pref := [T (-7) 96 m32; T (-2369) 9720 m33; T (-1) 9 m34; T 1 12 m35; T 524 243 m36; T (-4) 9 m37; T 7 24 m38; T (-137) 135 m39; T 4 9 m40; T 1 3 m41; T (-3449) 3240 m43; T 1 9 m44; T 7 96 m46; T (-1) 24 m48; T 1 6 m49; T (-16) 405 m50; T (-2) 3 m51; T (-16) 405 m52; T 32 405 m54; T (-1) 16 m239; T 1 4 m241; T (-1) 2 m243; T 1 8 m244; T (-1) 24 m280; T 1 6 m281; T (-32) 81 m283; T 1 6 m284; T (-2) 3 m285; T 52 81 m286; T (-20) 81 m289; T 25 72 m406; T (-1) 4 m407; T 14 3 m408; T (-91) 18 m409; T 1 1 m410; T (-1) 3 m411; T 17 162 m512; T 71 108 m513; T 74 81 m514; T (-10) 9 m515; T (-74) 81 m516; T 5 54 m517; T 10 9 m518; T (-17) 162 m519; T (-1) 2 m520; T (-3) 16 m521; T 1 8 m523].
Definition p209 : pref := [T 1 8 m55; T (-1) 2 m56; T 1 8 m245; T (-1) 2 m246].
Definition p210 : pref := [T 2 1 m59; T 1 1 m60; T (-2) 3 m61; T (-4) 3 m62; T 2 3 m63; T 1 1 m64; T 4 3 m65; T 4 3 m66; T (-1) 1 m68; T (-2) 1 m69; T (-4) 3 m70; T 1 12 m71; T (-1) 1 m72; T (-1) 12 m73; T (-1) 12 m74; T 1 12 m75; T 8 3 m77; T (-8) 3 m78; T (-8) 3 m79; T 8 3 m81; T 2 1 m249; T (-2) 3 m250; T 2 3 m251; T 2 1 m252; T (-2) 1 m254; T (-2) 1 m255; T 8 3 m290; T (-8) 3 m291; T (-4) 1 m413; T 4 1 m414; T 3 1 m524; T 20 3 m525; T (-3) 1 m526; T 1 4 m527; T (-20) 3 m528; T (-3) 1 m529; T (-1) 4 m530; T (-1) 2 m531; T 3 1 m532; T 1 2 m533; T 1 4 m534; T (-1) 4 m535].
Definition p211 : pref := [T (-5) 12 m5; T 5 48 m6; T (-11) 48 m82; T 1 6 m83; T 11 12 m84; T 2 3 m85; T (-1) 12 m89; T 1 3 m90; T (-4) 3 m91; T (-5) 24 m257; T 5 6 m259; T (-4) 3 m261; T 1 3 m262; T (-4) 3 m291; T 1 3 m293; T 2 1 m414; T (-1) 2 m416; T 3 2 m536; T (-1) 1 m538; T (-3) 8 m539; T 1 4 m541].
Definition p212 : pref := [T (-475) 1944 m4; T (-209) 1080 m5; T (-1) 48 m6; T 1 18 m23; T 1 12 m82; T 5 24 m83; T (-1) 24 m84; T 1 6 m85; T (-1) 12 m90; T (-1) 3 m91; T 524 243 m93; T (-4) 9 m94; T (-59) 270 m95; T 2 9 m96; T (-16) 405 m97; T 16 405 m98; T 1 12 m257; T (-1) 12 m259; T (-1) 6 m261; T (-1) 12 m262; T (-1) 3 m291; T (-1) 12 m293; T 1 24 m294; T (-32) 81 m296; T 26 81 m297; T 1 2 m414; T 1 8 m416; T 14 3 m417; T (-49) 18 m418; T (-1) 6 m419; T 3 4 m536; T 17 324 m537; T (-1) 2 m538; T (-17) 324 m542; T 74 81 m543; T (-5) 9 m544; T (-74) 81 m545; T 5 9 m546].
Definition p213 : pref := [T (-11) 6 m59; T (-1) 1 m60; T 2 3 m61; T 4 3 m62; T (-2) 3 m63; T (-1) 1 m64; T (-2) 3 m65; T (-4) 3 m66; T 1 1 m68; T 2 1 m69; T 2 3 m70; T (-1) 12 m71; T 5 6 m72; T 1 12 m74; T (-8) 3 m77; T 8 3 m78; T 8 3 m79; T (-8) 3 m81; T (-2) 1 m249; T 2 3 m250; T (-2) 3 m251; T (-2) 1 m252; T 2 1 m254; T 2 1 m255; T (-8) 3 m290; T 8 3 m291; T 4 1 m413; T (-2) 1 m414; T (-1) 2 m416; T (-2) 1 m524; T (-20) 3 m525; T 3 1 m526; T (-1) 4 m527; T 14 3 m528; T 3 1 m529; T 1 2 m531; T (-2) 1 m532; T (-1) 4 m534].
Definition p214 : pref := [T 6257 9720 m100; T (-1) 9 m101; T (-1) 2 m102; T 1 3 m103; T 1210 243 m104; T (-8) 9 m105; T 2 3 m106; T 1 8 m107; T (-1876) 1215 m108; T 4 9 m109; T (-1210) 243 m110; T 8 9 m111; T (-2) 3 m112; T (-2273) 2430 m114; T 1 9 m115; T 4967 2430 m116; T (-4) 9 m117; T (-1) 24 m119; T 1 24 m121; T (-32) 405 m122; T (-4) 3 m123; T 4 3 m125; T (-32) 405 m126; T 32 405 m128; T 32 405 m129; T 1 3 m265; T 1 12 m266; T (-1) 1 m267; T (-1) 4 m269; T 1 1 m270; T (-4) 3 m299; T (-64) 81 m300; T 1 6 m301; T 62 81 m303; T (-10) 81 m305; T 22 3 m420; T 2 1 m421; T (-13) 3 m422; T (-5) 18 m424; T 85 324 m547; T (-368) 81 m548; T 148 81 m549; T (-98) 81 m550; T (-296) 81 m551; T (-1) 162 m552; T 635 162 m553; T 148 81 m554; T (-1) 8 m555; T (-29) 324 m556; T 3 2 m557; T 1 4 m558; T (-1) 8 m560].
Definition p215 : pref := [T 2 1 m131; T (-2) 1 m132; T 24 1 m426; T (-26) 1 m427; T 2 1 m428].
Definition p216 : pref := [T (-17) 27 m4; T 1 36 m5; T (-1) 24 m6; T (-1) 18 m20; T (-1) 2 m21; T 1 9 m23; T 1 9 m24; T 55 54 m95; T (-2) 9 m96; T 1 24 m294; T (-5) 81 m295; T (-8) 81 m297; T 1 12 m298; T 13 81 m306; T 7 6 m418; T (-7) 6 m419; T 5 9 m561].
Definition p217 : pref := [T (-317) 216 m4; T 13 54 m5; T (-1) 24 m6; T (-11) 36 m15; T (-1) 18 m20; T (-1) 2 m21; T 1 9 m23; T 1 9 m24; T 55 54 m95; T (-2) 9 m96; T 1 24 m294; T (-5) 81 m295; T (-8) 81 m297; T 1 12 m298; T 13 81 m306; T 7 6 m418; T (-29) 18 m419; T 5 9 m561].
Definition p218 : pref := [T 169 162 m4; T (-1471) 324 m5; T 1 8 m6; T 25 54 m20; T (-83) 54 m21; T (-1) 3 m23; T 1 1 m24; T 607 162 m95; T (-2) 3 m96; T (-1) 8 m294; T (-5) 27 m295; T (-8) 27 m297; T 1 4 m298; T 13 27 m306; T 7 2 m418; T (-7) 2 m419; T 29 27 m561].
Definition p219 : pref := [T (-479) 648 m4; T (-274) 81 m5; T 1 8 m6; T 37 36 m15; T 25 54 m20; T (-83) 54 m21; T (-1) 3 m23; T 1 1 m24; T 607 162 m95; T (-2) 3 m96; T (-1) 8 m294; T (-5) 27 m295; T (-8) 27 m297; T 1 4 m298; T 13 27 m306; T 7 2 m418; T (-95) 18 m419; T 29 27 m561].
Definition p220 : pref := [T (-2) 9 m4; T 2 9 m5; T 1 4 m161; T (-1) 2 m164; T (-1) 4 m310; T 2 9 m315; T 1 2 m316; T (-2) 9 m317].
Definition p221 : pref := [T (-1) 8 m166; T 125 72 m167; T (-113) 36 m168; T 5 3 m169; T (-2) 9 m170; T 1 4 m171; T (-179) 72 m172; T 307 72 m173; T (-13) 6 m174; T 2 9 m175; T 7 24 m319; T 7 12 m320; T (-17) 8 m321; T 25 18 m322; T (-2) 9 m323; T (-2) 3 m324; T 1 6 m325; T 7 4 m326; T (-25) 18 m327; T 2 9 m328; T (-37) 72 m451; T 11 36 m452; T 19 24 m453; T (-1) 2 m454; T 8 9 m455; T (-19) 18 m456; T (-5) 12 m457; T 1 2 m458].
Definition p222 : pref := [T 1 64 m176; T (-9) 64 m177; T 15 64 m178; T (-7) 64 m179; T 3 32 m180; T (-277) 288 m181; T 479 288 m182; T (-83) 96 m183; T 1 9 m184; T (-1) 32 m329; T 1 8 m330; T (-9) 32 m331; T 5 16 m332; T (-1) 8 m333; T 1 16 m334; T (-7) 12 m335; T 31 48 m336; T 1 4 m337; T (-4) 9 m338; T 1 9 m339; T 3 32 m459; T (-3) 16 m460; T 3 32 m461; T 4 9 m462; T (-103) 144 m463; T 1 6 m464; T 1 16 m465].
Definition p223 : pref := [T (-13) 24 m340; T 5 12 m341; T 9 8 m342; T (-41) 36 m343; T 2 9 m344; T 55 72 m466; T (-47) 36 m467; T 5 24 m468; T 1 4 m469; T 1 8 m814; T (-29) 18 m815; T 113 36 m816; T (-43) 24 m817; T 2 9 m818].
Definition p224 : pref := [T 9 4 m190; T (-3) 4 m191; T (-9) 4 m192; T 3 4 m193; T 3 2 m345; T (-3) 2 m346; T (-3) 2 m470; T 3 2 m471].
Definition p225 : pref := [T 1 16 m9; T (-7) 8 m10; T 1 4 m11; T 3 4 m16; T (-3) 16 m17; T 7 1 m194; T (-25) 1 m195].
Definition p226 : pref := [T (-1) 8 m161].
Definition p227 : pref := [T (-3) 64 m7; T (-3) 64 m8; T (-1) 32 m9; T 1 16 m10; T (-1) 8 m11; T 3 32 m17; T 3 32 m217; T 3 32 m218; T 1 16 m379; T (-1) 8 m380; T 1 4 m381; T (-3) 16 m493].
Definition p228 : pref := [T 5 64 m176; T 595 576 m177; T (-1349) 576 m178; T 263 192 m179; T (-5) 32 m180; T (-311) 288 m181; T 769 288 m182; T (-151) 96 m183; T 2 9 m184; T (-2) 9 m219; T 7 32 m329; T (-7) 12 m330; T 173 96 m331; T (-45) 16 m332; T 109 72 m333; T (-7) 16 m334; T 13 12 m335; T (-109) 48 m336; T 25 8 m337; T (-59) 36 m338; T 2 9 m339; T (-2) 9 m382; T 115 288 m459; T 29 48 m460; T (-13) 32 m461; T 8 9 m462; T (-179) 144 m463; T (-1) 24 m464; T 5 16 m465; T (-37) 72 m494].
Definition p229 : pref := [T (-3) 4 m220; T 5 36 m221; T 31 18 m222; T (-17) 18 m223; T 3 2 m224; T (-59) 36 m225; T (-35) 36 m226; T 17 18 m227; T (-7) 4 m384; T 3 1 m385; T (-11) 12 m386; T (-1) 6 m387; T 5 2 m388; T (-9) 2 m389; T 1 6 m390; T 7 4 m496; T (-3) 1 m497; T 11 12 m498; T 1 6 m499; T (-5) 2 m500; T 9 2 m501; T (-1) 6 m502; T 5 3 m855; T (-5) 3 m871].
Definition p230 : pref := [T (-1) 12 m228; T (-1) 12 m394; T 1 3 m833; T 1 3 m856].
Definition p231 : pref := [T 1 8 m161; T (-1) 4 m164].
Definition p232 : pref := [T (-1) 8 m161; T 1 4 m164].
Definition p233 : pref := [T (-1) 32 m7; T 7 32 m8; T 1 16 m9; T (-1) 8 m10; T 1 4 m11; T (-3) 16 m17; T 1 16 m217; T (-7) 16 m218; T (-1) 8 m379; T 1 4 m380; T (-1) 2 m381; T 3 8 m493].
Definition p234 : pref := [T 1 16 m230; T 3 16 m231; T (-1) 8 m232; T 1 4 m399; T (-1) 8 m400; T (-1) 4 m503; T 1 8 m504].
Definition p235 : pref := [T 1 8 m233; T 3 8 m234; T (-1) 4 m235; T (-1) 8 m236; T (-3) 8 m237; T 1 4 m238; T 1 2 m401; T (-1) 4 m402; T (-1) 2 m403; T 1 4 m404; T (-1) 2 m505; T 1 4 m506; T 1 2 m507; T (-1) 4 m508].
Definition p236 : pref := [T (-1) 24 m294; T (-1) 27 m295; T (-1) 12 m298; T 1 27 m306].
Definition p237 : pref := [T (-1) 8 m294; T 1 9 m295; T 1 4 m298; T (-1) 9 m306].
Definition p238 : pref := [T 1 8 m294; T (-1) 9 m295; T (-1) 4 m298; T 1 9 m306].
Definition p239 : pref := [T 1 8 m294; T 1 9 m295; T (-1) 4 m298; T (-1) 9 m306].
Definition p240 : pref := [T (-1) 4 m383; T 1 4 m495].
Definition p241 : pref := [T 1 12 m294; T 4 27 m297; T (-4) 27 m306; T (-1) 3 m391].
Definition p242 : pref := [T (-1) 12 m294; T (-4) 27 m297; T 4 27 m306; T 1 3 m391].
Definition p243 : pref := [T (-1) 12 m294; T 4 27 m297; T (-4) 27 m306; T 1 3 m391].
Definition p244 : pref := [T 13 18 m392; T (-1) 27 m594; T 1 27 m595; T (-4) 9 m601].
Definition p245 : pref := [T 5 9 m397; T 2 27 m597; T 2 27 m598; T (-4) 27 m599; T 8 9 m603; T (-7) 3 m857].
Definition p246 : pref := [T 15 16 m4; T (-15) 16 m5; T (-15) 64 m6; T 3 8 m20; T (-3) 8 m21; T (-3) 32 m22; T (-1) 4 m23; T 1 4 m24; T 1 16 m25].
Definition p247 : pref := [T 7 128 m32; T (-241) 240 m33; T 1 4 m34; T 3 16 m35; T 40 9 m36; T (-1) 1 m37; T 7 32 m38; T (-373) 45 m39; T 2 1 m40; T 1 4 m41; T (-7) 32 m42; T 6937 1440 m43; T (-5) 4 m44; T (-1) 4 m45; T 1 128 m46; T (-1) 8 m47; T 1 32 m48; T (-1) 8 m49; T (-4) 135 m50; T (-1) 2 m51; T (-4) 135 m52; T 1 2 m53; T 8 135 m54; T 3 64 m239; T 3 8 m240; T 3 16 m241; T (-3) 16 m242; T (-3) 8 m243; T (-3) 32 m244; T 1 32 m280; T (-1) 8 m281; T 5 54 m282; T (-8) 27 m283; T 1 8 m284; T (-1) 2 m285; T 17 27 m286; T (-1) 8 m287; T 1 2 m288; T (-23) 54 m289; T (-5) 96 m406; T 3 16 m407; T 7 2 m408; T (-133) 24 m409; T 3 4 m410; T 2 1 m411; T (-3) 4 m412; T (-11) 24 m512; T (-83) 48 m513; T 11 6 m514; T (-11) 3 m515; T (-11) 6 m516; T 55 24 m517; T 11 3 m518; T (-5) 48 m519; T (-3) 8 m520; T 9 64 m521; T 3 8 m522; T (-3) 32 m523].
Definition p248 : pref := [T (-3) 32 m55; T (-3) 8 m56; T 3 8 m57; T (-3) 32 m245; T (-3) 8 m246; T 3 8 m247].
Definition p249 : pref := [T 3 8 m58; T 19 8 m59; T 5 4 m60; T (-1) 2 m61; T (-1) 1 m62; T 3 4 m63; T 3 4 m64; T 3 2 m65; T 1 1 m66; T (-1) 4 m67; T (-9) 8 m68; T (-2) 1 m69; T (-3) 2 m70; T (-15) 16 m71; T (-5) 4 m72; T 1 16 m73; T 9 16 m74; T (-1) 16 m75; T (-1) 1 m76; T 2 1 m77; T (-3) 1 m78; T (-2) 1 m79; T 1 1 m80; T 3 1 m81; T 3 4 m248; T 9 4 m249; T (-1) 2 m250; T 3 4 m251; T 3 2 m252; T (-1) 4 m253; T (-9) 4 m254; T (-3) 2 m255; T (-3) 4 m256; T 2 1 m290; T (-3) 1 m291; T 1 1 m292; T (-3) 1 m413; T 9 2 m414; T (-3) 2 m415; T 15 4 m524; T 5 1 m525; T (-9) 4 m526; T (-27) 16 m527; T (-33) 4 m528; T (-9) 4 m529; T 3 16 m530; T 29 8 m531; T 15 4 m532; T (-3) 8 m533; T (-27) 16 m534; T 3 16 m535].
Definition p250 : pref := [T 5 16 m4; T (-5) 16 m5; T (-5) 64 m6; T 11 64 m82; T 3 8 m83; T 11 16 m84; T 1 2 m85; T (-11) 16 m86; T (-1) 2 m87; T (-1) 4 m88; T 1 16 m89; T (-1) 4 m90; T (-1) 1 m91; T 1 1 m92; T 5 32 m257; T 1 1 m258; T 5 8 m259; T (-5) 8 m260; T (-1) 1 m261; T (-1) 4 m262; T (-1) 1 m291; T 1 1 m292; T (-1) 4 m293; T 3 2 m414; T (-3) 2 m415; T 3 8 m416; T 9 8 m536; T (-9) 8 m537; T (-3) 4 m538; T 9 32 m539; T 3 4 m540; T (-3) 16 m541].
Definition p251 : pref := [T 395 576 m4; T (-599) 1440 m5; T (-3) 64 m6; T (-1) 8 m23; T (-1) 16 m82; T 3 32 m83; T (-1) 32 m84; T 1 8 m85; T 9 64 m86; T (-1) 16 m88; T 1 16 m90; T (-1) 4 m91; T 40 9 m93; T (-1) 1 m94; T (-707) 180 m95; T 1 1 m96; T (-4) 135 m97; T 4 135 m98; T (-1) 16 m257; T (-1) 16 m258; T (-1) 16 m259; T 5 32 m260; T (-1) 8 m261; T 1 16 m262; T (-1) 4 m291; T 1 16 m293; T (-1) 32 m294; T (-5) 108 m295; T (-8) 27 m296; T 17 54 m297; T 1 16 m298; T 3 8 m414; T (-3) 32 m416; T 7 2 m417; T (-35) 12 m418; T 1 8 m419; T 9 16 m536; T (-49) 96 m537; T (-3) 8 m538; T 3 16 m540; T 11 48 m542; T 11 6 m543; T (-11) 6 m544; T (-11) 6 m545; T 11 6 m546].
Definition p252 : pref := [T (-3) 8 m58; T (-2) 1 m59; T (-3) 4 m60; T 1 2 m61; T 1 1 m62; T (-3) 4 m63; T (-3) 4 m64; T (-1) 1 m65; T (-1) 1 m66; T 1 4 m67; T 9 8 m68; T 3 2 m69; T 1 1 m70; T 11 16 m71; T 7 8 m72; T (-5) 16 m74; T 1 1 m76; T (-2) 1 m77; T 3 1 m78; T 2 1 m79; T (-1) 1 m80; T (-3) 1 m81; T (-3) 4 m248; T (-9) 4 m249; T 1 2 m250; T (-3) 4 m251; T (-3) 2 m252; T 1 4 m253; T 9 4 m254; T 3 2 m255; T 3 4 m256; T (-2) 1 m290; T 3 1 m291; T (-1) 1 m292; T 3 1 m413; T (-3) 1 m414; T 3 8 m416; T (-3) 1 m524; T (-5) 1 m525; T 9 4 m526; T 15 16 m527; T 27 4 m528; T 9 4 m529; T (-17) 8 m531; T (-3) 1 m532; T 15 16 m534].
Definition p253 : pref := [T (-3) 32 m99; T (-5717) 1440 m100; T 3 4 m101; T (-3) 8 m102; T 1 4 m103; T 169 18 m104; T (-2) 1 m105; T 1 2 m106; T (-1) 32 m107; T (-4153) 360 m108; T 5 2 m109; T (-347) 36 m110; T 2 1 m111; T (-1) 2 m112; T (-3) 64 m113; T 2521 720 m114; T (-3) 4 m115; T 536 45 m116; T (-5) 2 m117; T 1 4 m118; T 15 64 m119; T 1 4 m120; T (-1) 32 m121; T (-8) 135 m122; T (-1) 1 m123; T 1 2 m124; T 1 1 m125; T (-8) 135 m126; T (-1) 2 m127; T 8 135 m128; T 8 135 m129; T 3 32 m263; T (-3) 8 m264; T 1 4 m265; T (-1) 16 m266; T (-3) 4 m267; T (-1) 32 m268; T 3 16 m269; T 3 4 m270; T (-1) 1 m299; T (-16) 27 m300; T 1 8 m301; T 1 2 m302; T 43 54 m303; T (-1) 16 m304; T (-7) 27 m305; T 11 2 m420; T 3 2 m421; T (-41) 8 m422; T (-3) 4 m423; T 35 48 m424; T (-53) 16 m547; T (-85) 12 m548; T 11 3 m549; T (-55) 12 m550; T (-22) 3 m551; T 11 8 m552; T 247 24 m553; T 11 3 m554; T 47 16 m556; T 9 8 m557; T (-5) 32 m558; T (-3) 4 m559; T 3 32 m560].
Definition p254 : pref := [T 3 4 m130; T 3 2 m131; T (-9) 4 m132; T (-3) 4 m425; T 18 1 m426; T (-57) 2 m427; T 45 4 m428].
Definition p255 : pref := [T 101 72 m4; T (-179) 48 m5; T (-3) 32 m6; T 11 24 m20; T (-11) 8 m21; T (-1) 4 m23; T 3 4 m24; T 181 72 m95; T (-1) 2 m96; T (-1) 32 m294; T (-5) 108 m295; T (-2) 27 m297; T 1 16 m298; T 13 108 m306; T 7 8 m418; T (-7) 8 m419; T 11 12 m561].
Definition p256 : pref := [T 313 288 m4; T (-257) 72 m5; T (-3) 32 m6; T 7 48 m15; T 11 24 m20; T (-11) 8 m21; T (-1) 4 m23; T 3 4 m24; T 181 72 m95; T (-1) 2 m96; T (-1) 32 m294; T (-5) 108 m295; T (-2) 27 m297; T 1 16 m298; T 13 108 m306; T 7 8 m418; T (-29) 24 m419; T 11 12 m561].
Definition p257 : pref := [T 7 8 m392; T (-13) 48 m393; T (-1) 3 m601; T (-1) 18 m830; T 1 18 m831].
Definition p258 : pref := [T 1 16 m228; T (-1) 4 m229; T 1 16 m394; T (-1) 4 m395; T 1 4 m833; T 1 4 m856].
Definition p259 : pref := [T (-5) 24 m396; T 31 24 m397; T (-1) 9 m599; T 2 3 m603; T (-29) 12 m857; T 1 9 m884; T 1 9 m885].
Definition p260 : pref := [T (-1) 32 m294; T 1 36 m295; T 1 16 m298; T (-1) 36 m306].
Definition p261 : pref := [T 1 32 m294; T (-1) 36 m295; T (-1) 16 m298; T 1 36 m306].
Definition p262 : pref := [T 1 32 m294; T 1 36 m295; T (-1) 16 m298; T (-1) 36 m306].
Definition p263 : pref := [T (-1) 16 m294; T 1 18 m295; T 1 9 m297; T 1 4 m298; T (-1) 6 m306; T (-1) 4 m391].
Definition p264 : pref := [T 1 16 m294; T (-1) 18 m295; T (-1) 9 m297; T (-1) 4 m298; T 1 6 m306; T 1 4 m391].
Definition p265 : pref := [T 1 16 m294; T 1 18 m295; T 1 9 m297; T (-1) 4 m298; T (-1) 6 m306; T 1 4 m391].
Definition p266 : pref := [T (-15) 8 m4; T 5 2 m5; T 5 16 m6; T (-3) 4 m20; T 1 1 m21; T 1 8 m22; T 1 2 m23; T (-2) 3 m24; T (-1) 12 m25].
Definition p267 : pref := [T (-11) 8 m4; T (-5) 2 m5; T (-5) 16 m6; T (-3) 2 m15; T 3 4 m20; T (-1) 1 m21; T (-1) 8 m22; T 2 3 m24; T 1 12 m25].
Definition p268 : pref := [T (-7) 96 m32; T (-10369) 19440 m33; T 2 9 m34; T (-5) 12 m35; T 1910 243 m36; T (-16) 9 m37; T (-7) 12 m38; T (-6068) 405 m39; T 28 9 m40; T (-2) 3 m41; T 7 16 m42; T 4753 540 m43; T (-14) 9 m44; T 1 2 m45; T 7 96 m46; T 1 4 m47; T (-1) 24 m48; T 1 6 m49; T 32 405 m50; T 4 3 m51; T 32 405 m52; T (-1) 1 m53; T (-64) 405 m54; T (-1) 16 m239; T (-3) 4 m240; T (-1) 2 m241; T 3 8 m242; T 1 1 m243; T 1 8 m244; T (-1) 24 m280; T 1 6 m281; T (-5) 27 m282; T 64 81 m283; T (-1) 3 m284; T 4 3 m285; T (-128) 81 m286; T 1 4 m287; T (-1) 1 m288; T 79 81 m289; T (-5) 72 m406; T (-1) 4 m407; T (-28) 3 m408; T 245 18 m409; T (-2) 1 m410; T (-23) 6 m411; T 3 2 m412; T (-17) 81 m512; T (-19) 6 m513; T 164 81 m514; T (-94) 27 m515; T (-164) 81 m516; T 5 3 m517; T 94 27 m518; T 865 648 m519; T 1 1 m520; T (-3) 16 m521; T (-3) 4 m522; T 1 8 m523].
Definition p269 : pref := [T 1 8 m55; T 1 1 m56; T (-3) 4 m57; T 1 8 m245; T 1 1 m246; T (-3) 4 m247].
Definition p270 : pref := [T (-3) 4 m58; T (-23) 4 m59; T (-3) 1 m60; T 4 3 m61; T 8 3 m62; T (-11) 6 m63; T (-2) 1 m64; T (-11) 3 m65; T (-8) 3 m66; T 1 2 m67; T 11 4 m68; T 5 1 m69; T 11 3 m70; T 11 6 m71; T 3 1 m72; T (-1) 12 m73; T (-13) 12 m74; T 1 12 m75; T 2 1 m76; T (-16) 3 m77; T 22 3 m78; T 16 3 m79; T (-2) 1 m80; T (-22) 3 m81; T (-3) 2 m248; T (-11) 2 m249; T 4 3 m250; T (-11) 6 m251; T (-4) 1 m252; T 1 2 m253; T 11 2 m254; T 4 1 m255; T 3 2 m256; T (-16) 3 m290; T 22 3 m291; T (-2) 1 m292; T 8 1 m413; T (-11) 1 m414; T 3 1 m415; T (-9) 1 m524; T (-40) 3 m525; T 6 1 m526; T 13 4 m527; T 119 6 m528; T 6 1 m529; T (-1) 4 m530; T (-7) 1 m531; T (-9) 1 m532; T 1 2 m533; T 13 4 m534; T (-1) 4 m535].
Definition p271 : pref := [T (-5) 8 m4; T 5 6 m5; T 5 48 m6; T (-11) 48 m82; T (-5) 6 m83; T (-11) 6 m84; T (-4) 3 m85; T 11 8 m86; T 1 1 m87; T 1 2 m88; T (-1) 12 m89; T 1 3 m90; T 8 3 m91; T (-2) 1 m92; T (-5) 24 m257; T (-2) 1 m258; T (-5) 3 m259; T 5 4 m260; T 8 3 m261; T 1 3 m262; T 8 3 m291; T (-2) 1 m292; T 1 3 m293; T (-4) 1 m414; T 3 1 m415; T (-1) 2 m416; T (-3) 1 m536; T 9 4 m537; T 2 1 m538; T (-3) 8 m539; T (-3) 2 m540; T 1 4 m541].
Definition p272 : pref := [T 3557 7776 m4; T 1003 1080 m5; T (-1) 48 m6; T (-1) 9 m23; T 1 12 m82; T (-7) 24 m83; T 1 12 m84; T (-1) 3 m85; T (-9) 32 m86; T 1 8 m88; T (-1) 12 m90; T 2 3 m91; T 1910 243 m93; T (-16) 9 m94; T (-3268) 405 m95; T 14 9 m96; T 32 405 m97; T (-32) 405 m98; T 1 12 m257; T 1 8 m258; T 1 6 m259; T (-5) 16 m260; T 1 3 m261; T (-1) 12 m262; T 2 3 m291; T (-1) 12 m293; T 1 24 m294; T 5 54 m295; T 64 81 m296; T (-64) 81 m297; T (-1) 8 m298; T (-1) 1 m414; T 1 8 m416; T (-28) 3 m417; T 259 36 m418; T (-1) 6 m419; T (-3) 2 m536; T 593 1296 m537; T 1 1 m538; T (-3) 8 m540; T 17 162 m542; T 164 81 m543; T (-47) 27 m544; T (-164) 81 m545; T 47 27 m546].
Definition p273 : pref := [T 3 4 m58; T 59 12 m59; T 2 1 m60; T (-4) 3 m61; T (-8) 3 m62; T 11 6 m63; T 2 1 m64; T 7 3 m65; T 8 3 m66; T (-1) 2 m67; T (-11) 4 m68; T (-4) 1 m69; T (-7) 3 m70; T (-4) 3 m71; T (-13) 6 m72; T 7 12 m74; T (-2) 1 m76; T 16 3 m77; T (-22) 3 m78; T (-16) 3 m79; T 2 1 m80; T 22 3 m81; T 3 2 m248; T 11 2 m249; T (-4) 3 m250; T 11 6 m251; T 4 1 m252; T (-1) 2 m253; T (-11) 2 m254; T (-4) 1 m255; T (-3) 2 m256; T 16 3 m290; T (-22) 3 m291; T 2 1 m292; T (-8) 1 m413; T 7 1 m414; T (-1) 2 m416; T 7 1 m524; T 40 3 m525; T (-6) 1 m526; T (-7) 4 m527; T (-95) 6 m528; T (-6) 1 m529; T 4 1 m531; T 7 1 m532; T (-7) 4 m534].
Definition p274 : pref := [T (-5) 16 m99; T (-40489) 9720 m100; T 8 9 m101; T 1 1 m102; T (-2) 3 m103; T 3496 243 m104; T (-32) 9 m105; T (-4) 3 m106; T (-40931) 2430 m108; T 34 9 m109; T (-6749) 486 m110; T 32 9 m111; T 4 3 m112; T 3 32 m113; T 51019 9720 m114; T (-8) 9 m115; T 38501 2430 m116; T (-34) 9 m117; T (-1) 2 m118; T 5 96 m119; T (-1) 2 m120; T 1 24 m121; T 64 405 m122; T 8 3 m123; T (-1) 1 m124; T (-8) 3 m125; T 64 405 m126; T 1 1 m127; T (-64) 405 m128; T (-64) 405 m129; T (-3) 16 m263; T 3 4 m264; T (-2) 3 m265; T 1 12 m266; T 2 1 m267; T 1 16 m268; T (-1) 4 m269; T (-2) 1 m270; T 8 3 m299; T 128 81 m300; T (-1) 3 m301; T (-1) 1 m302; T (-160) 81 m303; T 1 8 m304; T 47 81 m305; T (-44) 3 m420; T (-4) 1 m421; T 149 12 m422; T 3 2 m423; T (-95) 72 m424; T (-71) 81 m547; T 199 81 m548; T 328 81 m549; T (-341) 81 m550; T (-656) 81 m551; T 76 81 m552; T 439 81 m553; T 328 81 m554; T 1 16 m555; T (-695) 324 m556; T (-3) 1 m557; T 3 16 m558; T 3 2 m559; T (-1) 8 m560].
Definition p275 : pref := [T (-3) 2 m130; T (-4) 1 m131; T 11 2 m132; T 3 2 m425; T (-48) 1 m426; T 70 1 m427; T (-47) 2 m428].
Definition p276 : pref := [T 163 108 m4; T (-109) 18 m5; T (-1) 24 m6; T 1 9 m20; T (-1) 1 m21; T (-2) 9 m23; T 10 9 m24; T 134 27 m95; T (-8) 9 m96; T 1 24 m294; T 10 81 m295; T 16 81 m297; T (-1) 6 m298; T (-26) 81 m306; T (-7) 3 m418; T 7 3 m419; T 8 9 m561].
Definition p277 : pref := [T 877 216 m4; T (-175) 27 m5; T (-1) 24 m6; T (-5) 36 m15; T 1 9 m20; T (-1) 1 m21; T (-2) 9 m23; T 10 9 m24; T 134 27 m95; T (-8) 9 m96; T 1 24 m294; T 10 81 m295; T 16 81 m297; T (-1) 6 m298; T (-26) 81 m306; T (-7) 3 m418; T 29 9 m419; T 8 9 m561].
Definition p278 : pref := [T (-581) 162 m4; T 818 81 m5; T 1 8 m6; T (-25) 27 m20; T 71 27 m21; T 2 3 m23; T (-2) 1 m24; T (-568) 81 m95; T 4 3 m96; T (-1) 8 m294; T (-5) 27 m295; T (-8) 27 m297; T 1 4 m298; T 13 27 m306; T 7 2 m418; T (-7) 2 m419; T (-46) 27 m561].
Definition p279 : pref := [T 4283 648 m4; T (-3563) 324 m5; T (-1) 8 m6; T (-29) 36 m15; T 25 27 m20; T (-71) 27 m21; T (-2) 3 m23; T 2 1 m24; T 568 81 m95; T (-4) 3 m96; T 1 8 m294; T 5 27 m295; T 8 27 m297; T (-1) 4 m298; T (-13) 27 m306; T (-7) 2 m418; T 91 18 m419; T 46 27 m561].
Definition p280 : pref := [T (-1) 9 m4; T 1 9 m5; T 1 8 m161; T (-1) 4 m164; T (-1) 8 m310; T 1 9 m315; T 1 4 m316; T (-1) 9 m317].
Definition p281 : pref := [T (-1) 12 m228; T 1 2 m229; T (-1) 12 m394; T 1 2 m395; T (-1) 3 m596; T (-1) 3 m602].
Definition p282 : pref := [T 1 12 m294; T (-1) 9 m295; T (-8) 27 m297; T (-1) 2 m298; T 11 27 m306; T 2 3 m391].
Definition p283 : pref := [T (-1) 12 m294; T 1 9 m295; T 8 27 m297; T 1 2 m298; T (-11) 27 m306; T (-2) 3 m391].
Definition p284 : pref := [T (-1) 12 m294; T (-1) 9 m295; T (-8) 27 m297; T 1 2 m298; T 11 27 m306; T (-2) 3 m391].
Definition p285 : pref := [T (-19) 9 m392; T 13 24 m393; T 2 27 m594; T (-2) 27 m595; T 8 9 m601].
Definition p286 : pref := [T 5 12 m396; T (-103) 36 m397; T (-4) 27 m597; T (-4) 27 m598; T 8 27 m599; T (-16) 9 m603; T 3 1 m604].
Definition p287 : pref := [T 5 8 m4; T 5 16 m6; T 1 4 m20; T 1 8 m22; T (-1) 6 m23; T (-1) 12 m25].
Definition p288 : pref := [T (-31) 8 m4; T (-5) 16 m6; T (-3) 2 m15; T (-1) 4 m20; T (-1) 8 m22; T 2 3 m23; T 1 12 m25].
Definition p289 : pref := [T (-7) 96 m32; T 205 144 m33; T (-1) 12 m35; T (-1) 9 m39; T (-7) 48 m42; T (-1) 6 m43; T (-1) 6 m45; T 7 96 m46; T (-1) 12 m47; T (-1) 24 m48; T 1 6 m49; T 1 3 m53; T (-1) 16 m239; T 1 4 m240; T (-1) 8 m242; T 1 8 m244; T (-1) 24 m280; T 1 6 m281; T 5 81 m282; T 8 81 m286; T (-1) 12 m287; T 1 3 m288; T (-13) 81 m289; T 1 24 m406; T (-1) 4 m407; T (-7) 6 m409; T 3 2 m411; T (-1) 2 m412; T (-3) 8 m519; T (-3) 16 m521; T 1 4 m522; T 1 8 m523].
Definition p290 : pref := [T 1 8 m55; T 1 4 m57; T 1 8 m245; T 1 4 m247].
Definition p291 : pref := [T 1 4 m58; T 7 12 m59; T 1 3 m60; T 1 6 m63; T 1 3 m65; T (-1) 6 m67; T (-1) 4 m68; T (-1) 3 m69; T (-1) 3 m70; T (-1) 2 m71; T (-1) 3 m72; T (-1) 12 m73; T 1 4 m74; T 1 12 m75; T (-2) 3 m76; T (-2) 3 m78; T 2 3 m80; T 2 3 m81; T 1 2 m248; T 1 2 m249; T 1 6 m251; T (-1) 6 m253; T (-1) 2 m254; T (-1) 2 m256; T (-2) 3 m291; T 2 3 m292; T 1 1 m414; T (-1) 1 m415; T 1 1 m524; T (-3) 4 m527; T (-13) 6 m528; T (-1) 4 m530; T 5 3 m531; T 1 1 m532; T 1 2 m533; T (-3) 4 m534; T (-1) 4 m535].
Definition p292 : pref := [T 5 24 m4; T 5 48 m6; T (-11) 48 m82; T (-1) 6 m83; T (-11) 24 m86; T (-1) 3 m87; T (-1) 6 m88; T (-1) 12 m89; T 1 3 m90; T 2 3 m92; T (-5) 24 m257; T 2 3 m258; T (-5) 12 m260; T 1 3 m262; T 2 3 m292; T 1 3 m293; T (-1) 1 m415; T (-1) 2 m416; T (-3) 4 m537; T (-3) 8 m539; T 1 2 m540; T 1 4 m541].
Definition p293 : pref := [T 1 96 m4; T (-13) 72 m5; T (-1) 48 m6; T 1 12 m82; T 1 24 m83; T 3 32 m86; T (-1) 24 m88; T (-1) 12 m90; T (-1) 18 m95; T 1 12 m257; T (-1) 24 m258; T 5 48 m260; T (-1) 12 m262; T (-1) 12 m293; T 1 24 m294; T (-5) 162 m295; T 4 81 m297; T 1 24 m298; T 1 8 m416; T (-7) 12 m418; T 1 6 m419; T (-3) 16 m537; T 1 8 m540].
Definition p294 : pref := [T (-1) 4 m58; T (-3) 4 m59; T (-1) 6 m63; T (-1) 3 m65; T 1 6 m67; T 1 4 m68; T 1 3 m70; T 1 3 m71; T 1 2 m72; T (-1) 12 m74; T 2 3 m76; T 2 3 m78; T (-2) 3 m80; T (-2) 3 m81; T (-1) 2 m248; T (-1) 2 m249; T (-1) 6 m251; T 1 6 m253; T 1 2 m254; T 1 2 m256; T 2 3 m291; T (-2) 3 m292; T (-1) 1 m414; T (-1) 2 m416; T (-1) 1 m524; T 1 4 m527; T 13 6 m528; T (-2) 3 m531; T (-1) 1 m532; T 1 4 m534].
Definition p295 : pref := [T 5 48 m99; T (-17) 72 m100; T (-1) 12 m107; T (-1) 3 m108; T (-1) 6 m110; T (-1) 32 m113; T 5 72 m114; T 1 3 m116; T 1 6 m118; T (-7) 96 m119; T 1 6 m120; T 1 24 m121; T 1 3 m124; T (-1) 3 m127; T 1 16 m263; T (-1) 4 m264; T (-1) 12 m266; T (-1) 48 m268; T 1 4 m269; T 1 3 m302; T 4 27 m303; T (-1) 24 m304; T (-1) 9 m305; T (-5) 4 m422; T (-1) 2 m423; T 5 8 m424; T (-1) 2 m547; T (-3) 16 m555; T 13 12 m556; T 13 48 m558; T (-1) 2 m559; T (-1) 8 m560].
Definition p296 : pref := [T 1 2 m130; T (-1) 2 m132; T (-1) 2 m425; T (-6) 1 m427; T 13 2 m428].
Definition p297 : pref := [T (-1) 6 m4; T (-5) 18 m5; T (-1) 24 m6; T 1 9 m95; T 1 24 m294; T (-5) 81 m295; T (-8) 81 m297; T 1 12 m298; T 13 81 m306; T 7 6 m418; T (-7) 6 m419].
Definition p298 : pref := [T 199 72 m4; T (-7) 36 m5; T 1 24 m6; T 1 12 m15; T (-1) 9 m95; T (-1) 24 m294; T 5 81 m295; T 8 81 m297; T (-1) 12 m298; T (-13) 81 m306; T (-7) 6 m418; T 11 6 m419].
Definition p299 : pref := [T 1 4 m4; T 1 8 m6; T (-1) 8 m294].
Definition p300 : pref := [T 19 8 m4; T 1 8 m6; T 3 4 m15; T (-1) 8 m294].
Definition p301 : pref := [T 1 4 m161; T (-1) 4 m310].
Definition p302 : pref := [T (-1) 1 m886; T (-2) 1 m887; T 3 8 m888; T (-3) 4 m889; T (-3) 8 m891; T 3 4 m892].
Definition p303 : pref := [T 5 64 m7; T (-35) 64 m8; T 7 32 m9; T (-1) 16 m10; T (-5) 8 m11; T (-3) 8 m16; T 27 32 m17].
Definition p304 : pref := [T (-3) 4 m643; T 3 2 m644; T 3 4 m890; T (-3) 4 m893].
Definition p305 : pref := [T (-1) 12 m228; T (-1) 6 m229; T (-1) 12 m394; T (-1) 6 m395].
Definition p306 : pref := [T (-1) 8 m294].
Definition p307 : pref := [T 1 8 m294].
Definition p308 : pref := [T 1 12 m294; T 1 27 m295; T 1 6 m298; T (-1) 27 m306].
Definition p309 : pref := [T (-1) 12 m294; T (-1) 27 m295; T (-1) 6 m298; T 1 27 m306].
Definition p310 : pref := [T (-1) 12 m294; T 1 27 m295; T (-1) 6 m298; T (-1) 27 m306].
Definition p311 : pref := [T (-13) 72 m393; T 1 9 m894].
Definition p312 : pref := [T (-5) 36 m396; T 7 12 m397; T (-2) 9 m604].
Definition p313 : pref := [T (-15) 8 m4; T (-3) 4 m15; T 1 2 m23].
Definition p314 : pref := [T 1 8 m4; T 2 1 m5; T 5 8 m6; T 3 4 m15; T (-1) 2 m20; T 1 1 m21; T 1 4 m22; T 1 3 m23; T (-1) 6 m24; T (-1) 6 m25].
Definition p315 : pref := [T 7 16 m32; T 11 8 m33; T (-1) 6 m34; T 1 2 m35; T (-2) 1 m43; T 1 6 m44; T (-5) 16 m46; T 1 4 m48; T (-1) 1 m49; T 1 4 m280; T (-1) 1 m281; T 1 8 m620; T 3 8 m660; T (-3) 4 m661; T (-3) 8 m708; T 9 4 m709; T (-3) 2 m710; T 3 4 m711; T (-21) 8 m712; T 3 2 m713; T 2 1 m762; T (-1) 1 m763; T (-7) 4 m764; T 3 8 m765; T 3 4 m766; T (-3) 4 m767].
Definition p316 : pref := [T (-3) 4 m55; T (-3) 4 m245].
Definition p317 : pref := [T (-1) 2 m88; T 1 2 m89; T (-3) 2 m768; T 3 2 m769].
Definition p318 : pref := [T (-5) 8 m4; T 11 8 m82; T 1 1 m83; T 1 2 m89; T (-2) 1 m90; T (-2) 1 m293; T 3 2 m769; T 5 1 m897; T (-8) 1 m898; T 15 1 m900; T (-12) 1 m901].
Definition p319 : pref := [T 1 1 m4; T (-1) 1 m5; T (-5) 32 m6; T 1 12 m24; T (-11) 32 m82; T (-1) 4 m83; T 1 2 m90; T 1 2 m293; T (-5) 16 m664; T 1 2 m665; T 5 16 m717; T (-5) 4 m718; T 3 4 m719; T (-1) 8 m720; T 17 16 m721; T (-3) 4 m722; T (-3) 4 m770; T 1 2 m771; T 5 8 m772; T (-3) 16 m773].
Definition p320 : pref := [T 1 1 m83; T 1 2 m88; T 3 1 m416; T 3 2 m768].
Definition p321 : pref := [T 3 4 m623; T (-2) 1 m624; T 1 6 m625; T 1 4 m626; T (-1) 1 m774; T 3 4 m775].
Definition p322 : pref := [T 3 4 m895; T 1 2 m902].
Definition p323 : pref := [T (-3) 4 m4; T (-2) 1 m5; T (-3) 4 m15; T 1 4 m20; T (-1) 1 m21; T (-1) 6 m23; T 1 6 m24; T 1 4 m294; T 1 8 m629].
Definition p324 : pref := [T (-3) 32 m7; T (-3) 32 m8; T (-1) 16 m9; T 1 2 m10; T (-5) 8 m11; T (-3) 8 m16; T 9 16 m17].
Definition p325 : pref := [T (-1) 4 m294; T (-1) 8 m629].
Definition p326 : pref := [T 1 16 m161; T (-1) 8 m310].
Definition p327 : pref := [T (-1) 16 m161; T 1 8 m310].
Definition p328 : pref := [T (-5) 12 m4; T 11 48 m6; T (-9) 32 m161; T (-5) 16 m671; T 3 8 m672; T (-1) 4 m673; T 5 8 m674; T (-1) 4 m675; T 3 16 m727; T (-3) 8 m728; T 3 4 m776; T (-9) 8 m777; T (-1) 2 m778; T 3 16 m779; T 1 1 m780; T (-1) 2 m781].
Definition p329 : pref := [T 3 32 m196; T 103 96 m197; T (-19) 24 m634; T (-11) 48 m635; T 11 48 m636; T (-1) 16 m676; T 1 16 m677; T 5 8 m678; T (-1) 4 m679; T (-1) 4 m680; T 1 8 m681; T (-1) 4 m682; T 1 8 m729; T (-7) 16 m730; T (-1) 16 m731; T (-1) 8 m732; T 5 8 m733; T (-1) 8 m734; T (-3) 4 m776; T 9 8 m777; T 1 2 m778; T (-3) 16 m779; T (-1) 1 m780; T 1 2 m781].
Definition p330 : pref := [T (-7) 96 m637; T (-5) 24 m638; T (-5) 16 m683; T (-1) 8 m684; T 1 4 m685; T 3 16 m735; T (-5) 4 m782; T 7 4 m783; T (-5) 16 m784; T (-13) 8 m785; T 5 8 m786; T 1 3 m896; T 1 1 m903].
Definition p331 : pref := [T (-5) 8 m639; T (-3) 4 m899].
Definition p332 : pref := [T 1 2 m228; T (-3) 16 m366; T 3 8 m368; T 7 32 m640; T (-1) 4 m641; T (-1) 8 m642; T 3 16 m666; T (-3) 8 m667; T 1 2 m689; T (-1) 2 m690; T (-1) 2 m691; T 1 2 m692; T (-15) 16 m737; T 3 4 m738; T 3 4 m739; T (-3) 4 m740; T (-3) 8 m787].
Definition p333 : pref := [T 3 4 m643; T (-55) 24 m644; T 7 6 m645; T 5 12 m646; T (-5) 12 m647; T (-5) 8 m693; T (-1) 4 m694; T 1 2 m695; T 5 8 m696; T 1 4 m697; T (-1) 2 m698; T (-3) 8 m741; T 9 4 m742; T (-3) 2 m743; T (-15) 8 m744; T 3 2 m745; T 5 2 m788; T (-7) 2 m789; T 5 8 m790; T 13 4 m791; T (-5) 4 m792; T (-1) 1 m796].
Definition p334 : pref := [T 1 2 m294; T 1 4 m629].
Definition p335 : pref := [T 1 2 m228; T 1 2 m394].
Definition p336 : pref := [T 1 4 m648; T 1 2 m699].
Definition p337 : pref := [T (-3) 8 m14; T 3 8 m18].
Definition p338 : pref := [T 1 4 m15; T (-1) 4 m20].
Definition p339 : pref := [T (-3) 4 m15; T 3 4 m20].
Definition p340 : pref := [T 15 8 m4; T (-15) 16 m6; T 3 4 m20; T (-3) 8 m22; T (-1) 2 m23; T 1 4 m25].
Definition p341 : pref := [T 7 32 m32; T 73 48 m33; T 1 4 m35; T (-1) 3 m39; T (-7) 16 m42; T (-1) 2 m45; T 1 32 m46; T (-1) 4 m47; T 1 8 m48; T (-1) 2 m49; T 1 1 m53; T 3 16 m239; T 3 4 m240; T (-3) 8 m242; T (-3) 8 m244; T 1 8 m280; T (-1) 2 m281; T 5 27 m282; T 8 27 m286; T (-1) 4 m287; T 1 1 m288; T (-13) 27 m289; T (-5) 8 m406; T 3 4 m407; T (-7) 2 m409; T 9 2 m411; T (-3) 2 m412; T (-9) 8 m519; T 9 16 m521; T 3 4 m522; T (-3) 8 m523].
Definition p342 : pref := [T (-3) 8 m55; T 3 4 m57; T (-3) 8 m245; T 3 4 m247].
Definition p343 : pref := [T 3 4 m58; T 7 4 m59; T 1 1 m60; T 1 2 m63; T 1 1 m65; T (-1) 2 m67; T (-3) 4 m68; T (-1) 1 m69; T (-1) 1 m70; T (-2) 1 m71; T (-1) 1 m72; T 1 4 m73; T 5 4 m74; T (-1) 4 m75; T (-2) 1 m76; T (-2) 1 m78; T 2 1 m80; T 2 1 m81; T 3 2 m248; T 3 2 m249; T 1 2 m251; T (-1) 2 m253; T (-3) 2 m254; T (-3) 2 m256; T (-2) 1 m291; T 2 1 m292; T 3 1 m414; T (-3) 1 m415; T 3 1 m524; T (-15) 4 m527; T (-13) 2 m528; T 3 4 m530; T 8 1 m531; T 3 1 m532; T (-3) 2 m533; T (-15) 4 m534; T 3 4 m535].
Definition p344 : pref := [T 5 8 m4; T (-5) 16 m6; T 11 16 m82; T 1 2 m83; T (-11) 8 m86; T (-1) 1 m87; T (-1) 2 m88; T 1 4 m89; T (-1) 1 m90; T 2 1 m92; T 5 8 m257; T 2 1 m258; T (-5) 4 m260; T (-1) 1 m262; T 2 1 m292; T (-1) 1 m293; T (-3) 1 m415; T 3 2 m416; T (-9) 4 m537; T 9 8 m539; T 3 2 m540; T (-3) 4 m541].
Definition p345 : pref := [T 17 32 m4; T (-13) 24 m5; T (-3) 16 m6; T (-1) 4 m82; T (-1) 8 m83; T 9 32 m86; T (-1) 8 m88; T 1 4 m90; T (-1) 6 m95; T (-1) 4 m257; T (-1) 8 m258; T 5 16 m260; T 1 4 m262; T 1 4 m293; T (-1) 8 m294; T (-5) 54 m295; T 4 27 m297; T 1 8 m298; T (-3) 8 m416; T (-7) 4 m418; T 1 2 m419; T (-9) 16 m537; T 3 8 m540].
Definition p346 : pref := [T (-3) 4 m58; T (-5) 4 m59; T (-1) 2 m63; T (-1) 1 m65; T 1 2 m67; T 3 4 m68; T 1 1 m70; T 3 2 m71; T 1 2 m72; T (-3) 4 m74; T 2 1 m76; T 2 1 m78; T (-2) 1 m80; T (-2) 1 m81; T (-3) 2 m248; T (-3) 2 m249; T (-1) 2 m251; T 1 2 m253; T 3 2 m254; T 3 2 m256; T 2 1 m291; T (-2) 1 m292; T (-3) 1 m414; T 3 2 m416; T (-3) 1 m524; T 9 4 m527; T 13 2 m528; T (-5) 1 m531; T (-3) 1 m532; T 9 4 m534].
Definition p347 : pref := [T (-3) 16 m99; T (-29) 24 m100; T (-1) 4 m107; T (-1) 1 m108; T (-1) 2 m110; T (-3) 32 m113; T 17 24 m114; T 1 1 m116; T 1 2 m118; T 17 32 m119; T 1 2 m120; T (-1) 8 m121; T 1 1 m124; T (-1) 1 m127; T 3 16 m263; T (-3) 4 m264; T (-1) 4 m266; T (-1) 16 m268; T 3 4 m269; T 1 1 m302; T 4 9 m303; T (-1) 8 m304; T (-1) 3 m305; T (-15) 4 m422; T (-3) 2 m423; T 15 8 m424; T (-3) 2 m547; T 3 16 m555; T 13 4 m556; T (-11) 16 m558; T (-3) 2 m559; T 3 8 m560].
Definition p348 : pref := [T 3 2 m130; T (-3) 2 m132; T (-3) 2 m425; T (-18) 1 m427; T 39 2 m428].
Definition p349 : pref := [T 3 2 m4; T (-11) 6 m5; T (-3) 8 m6; T 1 3 m95; T (-1) 8 m294; T (-5) 27 m295; T (-8) 27 m297; T 1 4 m298; T 13 27 m306; T 7 2 m418; T (-7) 2 m419].
Definition p350 : pref := [T 49 24 m4; T 5 12 m5; T 3 8 m6; T (-5) 4 m15; T (-1) 3 m95; T 1 8 m294; T 5 27 m295; T 8 27 m297; T (-1) 4 m298; T (-13) 27 m306; T (-7) 2 m418; T 11 2 m419].
Definition p351 : pref := [T 7 16 m32; T (-9) 8 m33; T 1 2 m34; T 1 2 m35; T 1 2 m43; T (-1) 2 m44; T (-5) 16 m46; T 1 4 m48; T (-1) 1 m49; T 1 4 m280; T (-1) 1 m281; T 1 8 m620; T 3 8 m660; T (-3) 4 m661; T (-3) 8 m708; T 9 4 m709; T (-3) 2 m710; T 3 4 m711; T (-21) 8 m712; T 3 2 m713; T (-3) 4 m764; T 3 8 m765; T 3 4 m766; T (-3) 4 m767].
Definition p352 : pref := [T 1 1 m4; T 1 4 m5; T (-5) 32 m6; T (-1) 4 m24; T (-11) 32 m82; T (-1) 4 m83; T 1 2 m90; T 1 2 m293; T (-5) 16 m664; T 1 2 m665; T (-3) 16 m717; T (-3) 4 m718; T 3 4 m719; T 3 8 m720; T 9 16 m721; T (-3) 4 m722; T 3 4 m904; T (-9) 8 m905; T 3 16 m906].
Definition p353 : pref := [T 3 4 m623; T 1 2 m624; T (-1) 2 m625; T 1 4 m626; T 3 4 m775].
Definition p354 : pref := [T (-13) 4 m4; T 1 2 m5; T (-3) 4 m15; T (-3) 4 m20; T 1 2 m23; T (-1) 2 m24; T 1 4 m294; T 1 8 m629].
Definition p355 : pref := [T 3 4 m4; T (-3) 8 m6; T (-1) 8 m294].
Definition p356 : pref := [T 23 8 m4; T (-3) 8 m6; T 3 4 m15; T (-1) 8 m294].
Definition p357 : pref := [T 1 4 m228; T (-1) 2 m229; T 1 4 m394; T (-1) 2 m395].
Definition p358 : pref := [T (-1) 4 m294; T 1 9 m295; T 1 2 m298; T (-1) 9 m306].
Definition p359 : pref := [T 1 4 m294; T (-1) 9 m295; T (-1) 2 m298; T 1 9 m306].
Definition p360 : pref := [T 1 4 m294; T 1 9 m295; T (-1) 2 m298; T (-1) 9 m306].
Definition p361 : pref := [T (-13) 24 m393; T 1 3 m894].
Definition p362 : pref := [T (-5) 12 m396; T 7 4 m397; T (-2) 3 m604].
Definition p363 : pref := [T (-15) 64 m6; T (-3) 32 m22; T 1 16 m25].
Definition p364 : pref := [T 7 128 m32; T (-1) 32 m33; T 1 16 m35; T 1 128 m46; T 1 32 m48; T (-1) 8 m49; T 1 32 m280; T (-1) 8 m281; T (-3) 32 m406; T 3 16 m407; T 3 64 m907; T (-3) 32 m908; T 9 1 m912; T (-6) 1 m913].
Definition p365 : pref := [T (-3) 32 m55; T (-3) 32 m245].
Definition p366 : pref := [T (-1) 16 m88; T 1 16 m89; T (-3) 16 m768; T 3 16 m769].
Definition p367 : pref := [T (-5) 64 m6; T 11 64 m82; T 1 8 m83; T 1 16 m89; T (-1) 4 m90; T (-1) 4 m293; T 3 8 m416; T 5 1 m909; T (-8) 1 m910; T 9 1 m914; T (-6) 1 m915].
Definition p368 : pref := [T (-3) 64 m6; T (-1) 16 m82; T (-1) 32 m83; T 1 16 m90; T 1 16 m293; T (-1) 32 m294; T (-3) 32 m416; T (-1) 16 m911].
Definition p369 : pref := [T 1 8 m83; T 1 16 m88; T 3 8 m416; T 3 16 m768].
Definition p370 : pref := [T 1 32 m626; T 3 32 m775].
Definition p371 : pref := [T (-3) 32 m6; T (-1) 32 m294].
Definition p372 : pref := [T (-5) 32 m4; T 3 32 m6; T (-3) 16 m15; T 1 32 m294].
Definition p373 : pref := [T 1 16 m228; T 1 16 m394].
Definition p374 : pref := [T (-1) 32 m294].
Definition p375 : pref := [T 1 32 m294].
Definition p376 : pref := [T (-1) 16 m294].
Definition p377 : pref := [T 1 16 m294].
Definition p378 : pref := [T (-5) 4 m4; T 5 16 m6; T (-1) 2 m20; T 1 8 m22; T 1 3 m23; T (-1) 12 m25].
Definition p379 : pref := [T (-7) 4 m4; T 5 16 m6; T (-1) 2 m20; T 1 8 m22; T 5 6 m23; T (-1) 12 m25].
Definition p380 : pref := [T (-7) 96 m32; T (-11) 9 m33; T (-1) 12 m35; T 2 9 m39; T 7 24 m42; T 5 6 m43; T 1 3 m45; T 7 96 m46; T 1 6 m47; T (-1) 24 m48; T 1 6 m49; T (-2) 3 m53; T (-1) 16 m239; T (-1) 2 m240; T 1 4 m242; T 1 8 m244; T (-1) 24 m280; T 1 6 m281; T (-10) 81 m282; T (-16) 81 m286; T 1 6 m287; T (-2) 3 m288; T 26 81 m289; T 7 24 m406; T (-1) 4 m407; T 7 3 m409; T (-3) 1 m411; T 1 1 m412; T 3 4 m519; T (-3) 16 m521; T (-1) 2 m522; T 1 8 m523].
Definition p381 : pref := [T 1 8 m55; T (-1) 2 m57; T 1 8 m245; T (-1) 2 m247].
Definition p382 : pref := [T (-1) 2 m58; T (-7) 6 m59; T (-2) 3 m60; T (-1) 3 m63; T (-2) 3 m65; T 1 3 m67; T 1 2 m68; T 2 3 m69; T 2 3 m70; T 5 4 m71; T 2 3 m72; T (-1) 12 m73; T (-3) 4 m74; T 1 12 m75; T 4 3 m76; T 4 3 m78; T (-4) 3 m80; T (-4) 3 m81; T (-1) 1 m248; T (-1) 1 m249; T (-1) 3 m251; T 1 3 m253; T 1 1 m254; T 1 1 m256; T 4 3 m291; T (-4) 3 m292; T (-2) 1 m414; T 2 1 m415; T (-2) 1 m524; T 9 4 m527; T 13 3 m528; T (-1) 4 m530; T (-29) 6 m531; T (-2) 1 m532; T 1 2 m533; T 9 4 m534; T (-1) 4 m535].
Definition p383 : pref := [T (-5) 12 m4; T 5 48 m6; T (-11) 48 m82; T (-1) 6 m83; T 11 12 m86; T 2 3 m87; T 1 3 m88; T (-1) 12 m89; T 1 3 m90; T (-4) 3 m92; T (-5) 24 m257; T (-4) 3 m258; T 5 6 m260; T 1 3 m262; T (-4) 3 m292; T 1 3 m293; T 2 1 m415; T (-1) 2 m416; T 3 2 m537; T (-3) 8 m539; T (-1) 1 m540; T 1 4 m541].
Definition p384 : pref := [T (-1) 48 m4; T 13 36 m5; T (-1) 48 m6; T 1 12 m82; T 1 24 m83; T (-3) 16 m86; T 1 12 m88; T (-1) 12 m90; T 1 9 m95; T 1 12 m257; T 1 12 m258; T (-5) 24 m260; T (-1) 12 m262; T (-1) 12 m293; T 1 24 m294; T 5 81 m295; T (-8) 81 m297; T (-1) 12 m298; T 1 8 m416; T 7 6 m418; T (-1) 3 m419; T 3 8 m916; T (-1) 4 m917].
Definition p385 : pref := [T 1 2 m58; T 1 1 m59; T 1 3 m63; T 2 3 m65; T (-1) 3 m67; T (-1) 2 m68; T (-2) 3 m70; T (-11) 12 m71; T (-1) 2 m72; T 5 12 m74; T (-4) 3 m76; T (-4) 3 m78; T 4 3 m80; T 4 3 m81; T 1 1 m248; T 1 1 m249; T 1 3 m251; T (-1) 3 m253; T (-1) 1 m254; T (-1) 1 m256; T (-4) 3 m291; T 4 3 m292; T 2 1 m414; T (-1) 2 m416; T 2 1 m524; T (-5) 4 m527; T (-13) 3 m528; T 17 6 m531; T 2 1 m532; T (-5) 4 m534].
Definition p386 : pref := [T (-5) 24 m99; T (-1) 36 m100; T 1 6 m107; T 2 3 m108; T 1 3 m110; T 1 16 m113; T 13 36 m114; T (-2) 3 m116; T (-1) 3 m118; T 1 48 m119; T (-1) 3 m120; T 1 24 m121; T (-2) 3 m124; T 2 3 m127; T (-1) 8 m263; T 1 2 m264; T 1 6 m266; T 1 24 m268; T (-1) 2 m269; T (-2) 3 m302; T (-8) 27 m303; T 1 12 m304; T 2 9 m305; T 5 2 m422; T 1 1 m423; T (-5) 4 m424; T 1 1 m547; T (-13) 6 m556; T 5 24 m558; T 1 1 m559; T (-1) 8 m560].
Definition p387 : pref := [T (-1) 1 m130; T 1 1 m132; T 1 1 m425; T 12 1 m427; T (-13) 1 m428].
Definition p388 : pref := [T 1 3 m4; T (-4) 9 m5; T (-1) 24 m6; T (-2) 9 m95; T 1 24 m294; T 10 81 m295; T 16 81 m297; T (-1) 6 m298; T (-26) 81 m306; T (-7) 3 m418; T 7 3 m419].
Definition p389 : pref := [T (-137) 72 m4; T 25 18 m5; T 1 24 m6; T 7 12 m15; T 2 9 m95; T (-1) 24 m294; T (-10) 81 m295; T (-16) 81 m297; T 1 6 m298; T 26 81 m306; T 7 3 m418; T (-11) 3 m419].
Definition p390 : pref := [T (-1) 2 m4; T 1 8 m6; T (-1) 8 m294].
Definition p391 : pref := [T (-1) 8 m4; T (-1) 8 m6; T (-3) 4 m15; T 1 8 m294].
Definition p392 : pref := [T 1 8 m161; T (-1) 8 m310].
Definition p393 : pref := [T (-1) 12 m228; T 1 3 m229; T (-1) 12 m394; T 1 3 m395].
Definition p394 : pref := [T 1 12 m294; T (-2) 27 m295; T (-1) 3 m298; T 2 27 m306].
Definition p395 : pref := [T (-1) 12 m294; T 2 27 m295; T 1 3 m298; T (-2) 27 m306].
Definition p396 : pref := [T (-1) 12 m294; T (-2) 27 m295; T 1 3 m298; T 2 27 m306].
Definition p397 : pref := [T 13 36 m393; T (-2) 9 m894].
Definition p398 : pref := [T 5 18 m396; T (-7) 6 m397; T 4 9 m604].
Definition p399 : pref := [T 5 12 m4; T (-5) 6 m5; T (-5) 96 m6; T 1 6 m20; T (-1) 3 m21; T (-1) 48 m22; T (-1) 9 m23; T 2 9 m24; T 1 72 m25].
Definition p400 : pref := [T 1 6 m4; T (-5) 6 m5; T (-5) 96 m6; T 1 6 m20; T (-1) 3 m21; T (-1) 48 m22; T 5 36 m23; T 2 9 m24; T 1 72 m25].
Definition p401 : pref := [T 7 576 m32; T (-15091) 58320 m33; T 2 81 m34; T 1 8 m35; T 1400 729 m36; T (-32) 81 m37; T 7 36 m38; T (-2762) 1215 m39; T 16 27 m40; T 2 9 m41; T (-7) 72 m42; T 103 180 m43; T (-2) 9 m44; T (-1) 9 m45; T (-13) 1728 m46; T (-1) 18 m47; T 1 144 m48; T (-1) 36 m49; T (-32) 1215 m50; T (-4) 9 m51; T (-32) 1215 m52; T 2 9 m53; T 64 1215 m54; T 1 96 m239; T 1 6 m240; T 1 6 m241; T (-1) 12 m242; T (-1) 3 m243; T (-1) 48 m244; T 1 144 m280; T (-1) 36 m281; T 10 243 m282; T (-64) 243 m283; T 1 9 m284; T (-4) 9 m285; T 40 81 m286; T (-1) 18 m287; T 2 9 m288; T (-22) 81 m289; T 31 432 m406; T 1 24 m407; T 28 9 m408; T (-112) 27 m409; T 2 3 m410; T 7 9 m411; T (-1) 3 m412; T (-11) 243 m512; T 5 54 m513; T 176 243 m514; T (-88) 81 m515; T (-176) 243 m516; T 11 27 m517; T 88 81 m518; T (-199) 972 m519; T (-1) 3 m520; T 1 32 m521; T 1 6 m522; T (-1) 48 m523; T (-131) 5184 m621; T (-1) 144 m622; T 1 24 m714; T 1 480 m797; T 121 324 m798; T (-1) 9 m799; T (-121) 648 m800; T 1 18 m801; T 11 864 m876; T 11 54 m877; T (-11) 108 m878].
Definition p402 : pref := [T (-1) 48 m55; T (-1) 3 m56; T 1 6 m57; T (-1) 48 m245; T (-1) 3 m246; T 1 6 m247].
Definition p403 : pref := [T 1 6 m58; T 31 18 m59; T 8 9 m60; T (-4) 9 m61; T (-8) 9 m62; T 5 9 m63; T 2 3 m64; T 10 9 m65; T 8 9 m66; T (-1) 9 m67; T (-5) 6 m68; T (-14) 9 m69; T (-10) 9 m70; T (-29) 72 m71; T (-8) 9 m72; T 1 72 m73; T 17 72 m74; T (-1) 72 m75; T (-4) 9 m76; T 16 9 m77; T (-20) 9 m78; T (-16) 9 m79; T 4 9 m80; T 20 9 m81; T 1 3 m248; T 5 3 m249; T (-4) 9 m250; T 5 9 m251; T 4 3 m252; T (-1) 9 m253; T (-5) 3 m254; T (-4) 3 m255; T (-1) 3 m256; T 16 9 m290; T (-20) 9 m291; T 4 9 m292; T (-8) 3 m413; T 10 3 m414; T (-2) 3 m415; T 8 3 m524; T 40 9 m525; T (-2) 1 m526; T (-17) 24 m527; T (-53) 9 m528; T (-2) 1 m529; T 1 24 m530; T 55 36 m531; T 8 3 m532; T (-1) 12 m533; T (-17) 24 m534; T 1 24 m535].
Definition p404 : pref := [T 5 36 m4; T (-5) 18 m5; T (-5) 288 m6; T 11 288 m82; T 1 4 m83; T 11 18 m84; T 4 9 m85; T (-11) 36 m86; T (-2) 9 m87; T (-1) 9 m88; T 1 72 m89; T (-1) 18 m90; T (-8) 9 m91; T 4 9 m92; T 5 144 m257; T 4 9 m258; T 5 9 m259; T (-5) 18 m260; T (-8) 9 m261; T (-1) 18 m262; T (-8) 9 m291; T 4 9 m292; T (-1) 18 m293; T 4 3 m414; T (-2) 3 m415; T 1 12 m416; T 1 1 m536; T (-1) 2 m537; T (-2) 3 m538; T 1 16 m539; T 1 3 m540; T (-1) 24 m541].
Definition p405 : pref := [T 997 11664 m4; T (-101) 405 m5; T (-1) 864 m6; T (-1) 81 m23; T (-1) 72 m82; T 5 48 m83; T (-1) 36 m84; T 1 9 m85; T 1 16 m86; T (-1) 36 m88; T 1 72 m90; T (-2) 9 m91; T 1400 729 m93; T (-32) 81 m94; T (-1147) 1215 m95; T 8 27 m96; T (-32) 1215 m97; T 32 1215 m98; T (-1) 72 m257; T (-1) 36 m258; T (-1) 18 m259; T 5 72 m260; T (-1) 9 m261; T 1 72 m262; T (-2) 9 m291; T 1 72 m293; T (-1) 144 m294; T (-5) 243 m295; T (-64) 243 m296; T 20 81 m297; T 1 36 m298; T 1 3 m414; T (-1) 48 m416; T 28 9 m417; T (-119) 54 m418; T 1 2 m536; T (-287) 1944 m537; T (-1) 3 m538; T 1 12 m540; T 11 486 m542; T 176 243 m543; T (-44) 81 m544; T (-176) 243 m545; T 44 81 m546; T (-121) 10368 m627; T 1 288 m628; T 121 648 m802; T (-1) 18 m803; T (-11) 1728 m879; T 11 108 m880].
Definition p406 : pref := [T (-1) 6 m58; T (-53) 36 m59; T (-2) 3 m60; T 4 9 m61; T 8 9 m62; T (-5) 9 m63; T (-2) 3 m64; T (-2) 3 m65; T (-8) 9 m66; T 1 9 m67; T 5 6 m68; T 4 3 m69; T 2 3 m70; T 7 24 m71; T 23 36 m72; T (-1) 8 m74; T 4 9 m76; T (-16) 9 m77; T 20 9 m78; T 16 9 m79; T (-4) 9 m80; T (-20) 9 m81; T (-1) 3 m248; T (-5) 3 m249; T 4 9 m250; T (-5) 9 m251; T (-4) 3 m252; T 1 9 m253; T 5 3 m254; T 4 3 m255; T 1 3 m256; T (-16) 9 m290; T 20 9 m291; T (-4) 9 m292; T 8 3 m413; T (-2) 1 m414; T 1 12 m416; T (-2) 1 m524; T (-40) 9 m525; T 2 1 m526; T 3 8 m527; T 41 9 m528; T 2 1 m529; T (-31) 36 m531; T (-2) 1 m532; T 3 8 m534].
Definition p407 : pref := [T 7 216 m99; T (-2597) 3645 m100; T 10 81 m101; T (-1) 3 m102; T 2 9 m103; T 3124 729 m104; T (-64) 81 m105; T 4 9 m106; T 1 36 m107; T (-12142) 3645 m108; T 56 81 m109; T (-3205) 729 m110; T 64 81 m111; T (-4) 9 m112; T (-1) 48 m113; T 5933 14580 m114; T (-10) 81 m115; T 13357 3645 m116; T (-56) 81 m117; T 1 9 m118; T 5 216 m119; T 1 9 m120; T (-1) 144 m121; T (-64) 1215 m122; T (-8) 9 m123; T 2 9 m124; T 8 9 m125; T (-64) 1215 m126; T (-2) 9 m127; T 64 1215 m128; T 64 1215 m129; T 1 24 m263; T (-1) 6 m264; T 2 9 m265; T (-2) 3 m267; T (-1) 72 m268; T 2 3 m270; T (-8) 9 m299; T (-128) 243 m300; T 1 9 m301; T 2 9 m302; T 148 243 m303; T (-1) 36 m304; T (-38) 243 m305; T 44 9 m420; T 4 3 m421; T (-67) 18 m422; T (-1) 3 m423; T 25 108 m424; T (-301) 486 m547; T (-848) 243 m548; T 352 243 m549; T (-308) 243 m550; T (-704) 243 m551; T 55 243 m552; T 859 243 m553; T 352 243 m554; T (-1) 48 m555; T 217 243 m556; T 1 1 m557; T (-1) 36 m558; T (-1) 3 m559; T 1 48 m560; T 121 324 m804; T (-1) 9 m805; T (-121) 1296 m806; T 1 36 m807; T 11 54 m881; T (-11) 216 m882].
Definition p408 : pref := [T 1 3 m130; T 4 3 m131; T (-5) 3 m132; T (-1) 3 m425; T 16 1 m426; T (-64) 3 m427; T 17 3 m428].
Definition p409 : pref := [T (-323) 972 m4; T 821 486 m5; T 1 144 m6; T (-11) 81 m20; T 55 81 m21; T 2 27 m23; T (-10) 27 m24; T (-377) 243 m95; T 8 27 m96; T 1 48 m294; T 5 81 m295; T 8 81 m297; T (-1) 12 m298; T (-13) 81 m306; T (-7) 6 m418; T 7 6 m419; T (-44) 81 m561; T 121 1728 m627; T (-1) 48 m628; T (-121) 432 m808; T 1 12 m809; T 11 288 m879; T (-11) 72 m883].
Definition p410 : pref := [T (-1087) 3888 m4; T (-1351) 972 m5; T (-1) 144 m6; T 31 216 m15; T 11 81 m20; T (-55) 81 m21; T (-2) 27 m23; T 10 27 m24; T 377 243 m95; T (-8) 27 m96; T (-1) 48 m294; T (-5) 81 m295; T (-8) 81 m297; T 1 12 m298; T 13 81 m306; T 7 6 m418; T (-91) 54 m419; T 44 81 m561; T (-205) 1728 m627; T 1 48 m628; T 1 24 m723; T 121 432 m808; T (-1) 12 m809; T (-11) 288 m879; T 11 72 m883].
Definition p411 : pref := [T 131 5184 m143; T 1 144 m144; T (-1) 24 m435; T (-1) 480 m607; T (-121) 324 m608; T 1 9 m609; T 121 648 m610; T (-1) 18 m611; T (-11) 864 m754; T (-11) 54 m755; T 11 108 m756].
Definition p412 : pref := [T 121 10368 m157; T (-1) 288 m158; T (-121) 648 m612; T 1 18 m613; T 11 1728 m757; T (-11) 108 m758].
Definition p413 : pref := [T (-121) 324 m614; T 1 9 m615; T 121 1296 m616; T (-1) 36 m617; T (-11) 54 m759; T 11 216 m760].
Definition p414 : pref := [T (-121) 1728 m157; T 1 48 m158; T 121 432 m618; T (-1) 12 m619; T (-11) 288 m757; T 11 72 m761].
Definition p415 : pref := [T 205 1728 m157; T (-1) 48 m158; T (-1) 24 m446; T (-121) 432 m618; T 1 12 m619; T 11 288 m757; T (-11) 72 m761].
Definition p416 : pref := [T 1 27 m4; T (-1) 27 m5; T (-1) 48 m161; T 1 12 m164; T 1 48 m310; T (-1) 27 m315; T (-1) 12 m316; T 1 27 m317; T (-1) 96 m627; T 1 96 m843].
Definition p417 : pref := [T (-1) 96 m0; T 1 96 m157].
Definition p418 : pref := [T 1 72 m228; T (-1) 9 m229; T 1 72 m394; T (-1) 9 m395; T 1 9 m596; T 1 9 m602].
Definition p419 : pref := [T 1 48 m294; T (-1) 27 m295; T (-1) 12 m298; T 1 27 m306].
Definition p420 : pref := [T (-1) 48 m294; T (-1) 27 m295; T 1 12 m298; T 1 27 m306].
Definition p421 : pref := [T (-1) 72 m294; T 2 81 m295; T 8 81 m297; T 1 9 m298; T (-10) 81 m306; T (-2) 9 m391].
Definition p422 : pref := [T 1 72 m294; T (-2) 81 m295; T (-8) 81 m297; T (-1) 9 m298; T 10 81 m306; T 2 9 m391].
Definition p423 : pref := [T 1 72 m294; T 2 81 m295; T 8 81 m297; T (-1) 9 m298; T (-10) 81 m306; T 2 9 m391].
Definition p424 : pref := [T 17 27 m392; T (-13) 108 m393; T (-2) 81 m594; T 2 81 m595; T (-8) 27 m601].
Definition p425 : pref := [T (-5) 54 m396; T 41 54 m397; T 4 81 m597; T 4 81 m598; T (-8) 81 m599; T 16 27 m603; T (-25) 27 m604].
Definition p426 : pref := [T (-1) 24 m4; T 1 12 m5; T (-1) 24 m6; T (-1) 12 m20; T 1 6 m21; T (-1) 12 m22; T 1 18 m23; T (-1) 9 m24; T 1 18 m25].
Definition p427 : pref := [T (-7) 144 m32; T (-6743) 58320 m33; T 2 81 m34; T 40 729 m36; T 4 81 m37; T 7 72 m38; T 313 2430 m39; T (-2) 27 m40; T 1 9 m41; T (-7) 144 m42; T (-101) 1080 m43; T (-1) 18 m45; T 11 432 m46; T (-1) 36 m47; T (-1) 36 m48; T 1 9 m49; T (-16) 1215 m50; T (-2) 9 m51; T (-16) 1215 m52; T 1 9 m53; T 32 1215 m54; T (-1) 24 m239; T 1 12 m240; T 1 12 m241; T (-1) 24 m242; T (-1) 6 m243; T 1 12 m244; T (-1) 36 m280; T 1 9 m281; T 5 243 m282; T (-32) 243 m283; T 1 18 m284; T (-2) 9 m285; T 20 81 m286; T (-1) 36 m287; T 1 9 m288; T (-11) 81 m289; T 1 6 m406; T (-1) 6 m407; T 14 9 m408; T (-56) 27 m409; T 1 3 m410; T 19 54 m411; T (-1) 6 m412; T (-23) 486 m512; T 25 108 m513; T (-14) 243 m514; T 7 81 m515; T 14 243 m516; T 1 54 m517; T (-7) 81 m518; T (-151) 1944 m519; T (-1) 6 m520; T (-1) 8 m521; T 1 12 m522; T 1 12 m523].
Definition p428 : pref := [T 1 12 m55; T (-1) 6 m56; T 1 12 m57; T 1 12 m245; T (-1) 6 m246; T 1 12 m247].
Definition p429 : pref := [T 1 12 m58; T 31 36 m59; T 4 9 m60; T (-2) 9 m61; T (-4) 9 m62; T 5 18 m63; T 1 3 m64; T 5 9 m65; T 4 9 m66; T (-1) 18 m67; T (-5) 12 m68; T (-7) 9 m69; T (-5) 9 m70; T (-5) 36 m71; T (-4) 9 m72; T (-1) 18 m73; T 1 18 m74; T 1 18 m75; T (-2) 9 m76; T 8 9 m77; T (-10) 9 m78; T (-8) 9 m79; T 2 9 m80; T 10 9 m81; T 1 6 m248; T 5 6 m249; T (-2) 9 m250; T 5 18 m251; T 2 3 m252; T (-1) 18 m253; T (-5) 6 m254; T (-2) 3 m255; T (-1) 6 m256; T 8 9 m290; T (-10) 9 m291; T 2 9 m292; T (-4) 3 m413; T 5 3 m414; T (-1) 3 m415; T 4 3 m524; T 20 9 m525; T (-1) 1 m526; T (-1) 6 m527; T (-53) 18 m528; T (-1) 1 m529; T (-1) 6 m530; T 7 18 m531; T 4 3 m532; T 1 3 m533; T (-1) 6 m534; T (-1) 6 m535].
Definition p430 : pref := [T 5 72 m4; T (-5) 36 m5; T 5 72 m6; T (-11) 72 m82; T 11 36 m84; T 2 9 m85; T (-11) 72 m86; T (-1) 9 m87; T (-1) 18 m88; T (-1) 18 m89; T 2 9 m90; T (-4) 9 m91; T 2 9 m92; T (-5) 36 m257; T 2 9 m258; T 5 18 m259; T (-5) 36 m260; T (-4) 9 m261; T 2 9 m262; T (-4) 9 m291; T 2 9 m292; T 2 9 m293; T 2 3 m414; T (-1) 3 m415; T (-1) 3 m416; T 1 2 m536; T (-1) 4 m537; T (-1) 3 m538; T (-1) 4 m539; T 1 6 m540; T 1 6 m541].
Definition p431 : pref := [T 697 23328 m4; T (-167) 1620 m5; T 1 108 m6; T (-1) 81 m23; T 1 18 m82; T 1 12 m83; T (-1) 72 m84; T 1 18 m85; T 1 32 m86; T (-1) 72 m88; T (-1) 18 m90; T (-1) 9 m91; T 40 729 m93; T 4 81 m94; T 781 4860 m95; T (-1) 27 m96; T (-16) 1215 m97; T 16 1215 m98; T 1 18 m257; T (-1) 72 m258; T (-1) 36 m259; T 5 144 m260; T (-1) 18 m261; T (-1) 18 m262; T (-1) 9 m291; T (-1) 18 m293; T 1 36 m294; T (-5) 486 m295; T (-32) 243 m296; T 10 81 m297; T 1 72 m298; T 1 6 m414; T 1 12 m416; T 14 9 m417; T (-119) 108 m418; T (-1) 54 m419; T 1 4 m536; T (-335) 3888 m537; T (-1) 6 m538; T 1 24 m540; T 23 972 m542; T (-14) 243 m543; T 7 162 m544; T 14 243 m545; T (-7) 162 m546].
Definition p432 : pref := [T (-1) 12 m58; T (-31) 36 m59; T (-1) 3 m60; T 2 9 m61; T 4 9 m62; T (-5) 18 m63; T (-1) 3 m64; T (-1) 3 m65; T (-4) 9 m66; T 1 18 m67; T 5 12 m68; T 2 3 m69; T 1 3 m70; T 1 12 m71; T 4 9 m72; T 2 9 m76; T (-8) 9 m77; T 10 9 m78; T 8 9 m79; T (-2) 9 m80; T (-10) 9 m81; T (-1) 6 m248; T (-5) 6 m249; T 2 9 m250; T (-5) 18 m251; T (-2) 3 m252; T 1 18 m253; T 5 6 m254; T 2 3 m255; T 1 6 m256; T (-8) 9 m290; T 10 9 m291; T (-2) 9 m292; T 4 3 m413; T (-1) 1 m414; T (-1) 3 m416; T (-1) 1 m524; T (-20) 9 m525; T 1 1 m526; T 41 18 m528; T 1 1 m529; T (-1) 18 m531; T (-1) 1 m532].
Definition p433 : pref := [T 5 432 m99; T (-571) 3645 m100; T 1 81 m101; T (-1) 6 m102; T 1 9 m103; T 242 729 m104; T 8 81 m105; T 2 9 m106; T 1 72 m107; T (-1859) 14580 m108; T (-7) 81 m109; T (-565) 1458 m110; T (-8) 81 m111; T (-2) 9 m112; T (-1) 96 m113; T 113 29160 m114; T (-1) 81 m115; T 4289 14580 m116; T 7 81 m117; T 1 18 m118; T (-13) 864 m119; T 1 18 m120; T 1 36 m121; T (-32) 1215 m122; T (-4) 9 m123; T 1 9 m124; T 4 9 m125; T (-32) 1215 m126; T (-1) 9 m127; T 32 1215 m128; T 32 1215 m129; T 1 48 m263; T (-1) 12 m264; T 1 9 m265; T (-1) 3 m267; T (-1) 144 m268; T 1 3 m270; T (-4) 9 m299; T (-64) 243 m300; T 1 18 m301; T 1 9 m302; T 74 243 m303; T (-1) 72 m304; T (-19) 243 m305; T 22 9 m420; T 2 3 m421; T (-67) 36 m422; T (-1) 6 m423; T 17 216 m424; T (-145) 972 m547; T (-491) 486 m548; T (-28) 243 m549; T 49 486 m550; T 56 243 m551; T 8 243 m552; T 145 486 m553; T (-28) 243 m554; T (-5) 48 m555; T 89 243 m556; T 1 2 m557; T 25 144 m558; T (-1) 6 m559; T (-1) 12 m560].
Definition p434 : pref := [T 1 6 m130; T 2 3 m131; T (-5) 6 m132; T (-1) 6 m425; T 8 1 m426; T (-32) 3 m427; T 17 6 m428].
Definition p435 : pref := [T (-10) 243 m4; T 44 243 m5; T (-1) 18 m6; T (-10) 81 m20; T 17 81 m21; T 2 27 m23; T (-4) 27 m24; T (-41) 486 m95; T 2 27 m96; T (-1) 12 m294; T (-5) 81 m295; T (-8) 81 m297; T 1 12 m298; T 13 81 m306; T 7 6 m418; T (-7) 6 m419; T (-7) 81 m561].
Definition p436 : pref := [T (-415) 972 m4; T 551 972 m5; T (-1) 18 m6; T 16 27 m15; T (-10) 81 m20; T 17 81 m21; T 2 27 m23; T (-4) 27 m24; T (-41) 486 m95; T 2 27 m96; T (-1) 12 m294; T (-5) 81 m295; T (-8) 81 m297; T 1 12 m298; T 13 81 m306; T 7 6 m418; T (-95) 54 m419; T (-7) 81 m561].
Definition p437 : pref := [T 20 243 m4; T (-25) 972 m5; T 1 36 m6; T 13 162 m20; T 1 162 m21; T (-1) 27 m23; T (-1) 27 m24; T (-41) 486 m95; T 2 27 m96; T 1 24 m294; T (-5) 81 m295; T (-8) 81 m297; T 1 12 m298; T 13 81 m306; T 7 6 m418; T (-7) 6 m419; T (-7) 81 m561].
Definition p438 : pref := [T (-2) 27 m4; T 2 27 m5; T 1 6 m161; T (-1) 6 m164; T (-1) 6 m310; T 2 27 m315; T 1 6 m316; T (-2) 27 m317].
Definition p439 : pref := [T (-1) 32 m7; T (-1) 32 m8; T (-1) 48 m9; T 1 24 m10; T (-1) 12 m11; T 1 16 m17; T 1 32 m217; T 1 32 m218; T 1 48 m379; T (-1) 24 m380; T 1 12 m381; T (-1) 16 m493].
Definition p440 : pref := [T 5 96 m176; T 311 864 m177; T (-769) 864 m178; T 151 288 m179; T (-5) 96 m180; T (-311) 864 m181; T 769 864 m182; T (-151) 288 m183; T 2 27 m184; T (-2) 27 m219; T 7 48 m329; T (-13) 36 m330; T 109 144 m331; T (-25) 24 m332; T 59 108 m333; T (-7) 48 m334; T 13 36 m335; T (-109) 144 m336; T 25 24 m337; T (-59) 108 m338; T 2 27 m339; T (-2) 27 m382; T 179 432 m459; T 1 72 m460; T (-5) 48 m461; T 8 27 m462; T (-179) 432 m463; T (-1) 72 m464; T 5 48 m465; T (-8) 27 m494].
Definition p441 : pref := [T (-1) 2 m220; T 59 108 m221; T 35 108 m222; T (-17) 54 m223; T 1 2 m224; T (-59) 108 m225; T (-35) 108 m226; T 17 54 m227; T (-5) 6 m384; T 3 2 m385; T (-5) 9 m386; T (-1) 18 m387; T 5 6 m388; T (-3) 2 m389; T 1 18 m390; T 5 6 m496; T (-3) 2 m497; T 5 9 m498; T 1 18 m499; T (-5) 6 m500; T 3 2 m501; T (-1) 18 m502; T 5 9 m855; T (-5) 9 m871].
Definition p442 : pref := [T (-1) 12 m166; T 179 216 m167; T (-307) 216 m168; T 13 18 m169; T (-2) 27 m170; T 1 12 m171; T (-179) 216 m172; T 307 216 m173; T (-13) 18 m174; T 2 27 m175; T 2 9 m319; T (-1) 18 m320; T (-7) 12 m321; T 25 54 m322; T (-2) 27 m323; T (-2) 9 m324; T 1 18 m325; T 7 12 m326; T (-25) 54 m327; T 2 27 m328; T (-8) 27 m451; T 19 54 m452; T 5 36 m453; T (-1) 6 m454; T 8 27 m455; T (-19) 54 m456; T (-5) 36 m457; T 1 6 m458].
Definition p443 : pref := [T 1 96 m176; T (-3) 32 m177; T 5 32 m178; T (-7) 96 m179; T 1 32 m180; T (-277) 864 m181; T 479 864 m182; T (-83) 288 m183; T 1 27 m184; T (-1) 48 m329; T 1 12 m330; T (-3) 16 m331; T 5 24 m332; T (-1) 12 m333; T 1 48 m334; T (-7) 36 m335; T 31 144 m336; T 1 12 m337; T (-4) 27 m338; T 1 27 m339; T 1 16 m459; T (-1) 8 m460; T 1 16 m461; T 4 27 m462; T (-103) 432 m463; T 1 18 m464; T 1 48 m465].
Definition p444 : pref := [T (-13) 72 m340; T 5 36 m341; T 3 8 m342; T (-41) 108 m343; T 2 27 m344; T 55 216 m466; T (-47) 108 m467; T 5 72 m468; T 1 12 m469; T 1 24 m814; T (-29) 54 m815; T 113 108 m816; T (-43) 72 m817; T 2 27 m818].
Definition p445 : pref := [T 3 4 m190; T (-1) 4 m191; T (-3) 4 m192; T 1 4 m193; T 1 2 m345; T (-1) 2 m346; T (-1) 2 m470; T 1 2 m471].
Definition p446 : pref := [T (-1) 18 m228; T (-1) 18 m229; T (-1) 18 m394; T (-1) 18 m395; T 1 9 m833; T 1 9 m856].
Definition p447 : pref := [T 1 12 m161; T (-1) 12 m164].
Definition p448 : pref := [T (-1) 12 m161; T 1 12 m164].
Definition p449 : pref := [T (-1) 48 m7; T 7 48 m8; T 1 24 m9; T (-1) 12 m10; T 1 6 m11; T (-1) 8 m17; T 1 48 m217; T (-7) 48 m218; T (-1) 24 m379; T 1 12 m380; T (-1) 6 m381; T 1 8 m493].
Definition p450 : pref := [T 1 48 m230; T 1 16 m231; T (-1) 24 m232; T 1 12 m399; T (-1) 24 m400; T (-1) 12 m503; T 1 24 m504].
Definition p451 : pref := [T 1 24 m233; T 1 8 m234; T (-1) 12 m235; T (-1) 24 m236; T (-1) 8 m237; T 1 12 m238; T 1 6 m401; T (-1) 12 m402; T (-1) 6 m403; T 1 12 m404; T (-1) 6 m505; T 1 12 m506; T 1 6 m507; T (-1) 12 m508].
Definition p452 : pref := [T (-1) 12 m294; T 1 27 m295; T 1 12 m298; T (-1) 27 m306].
Definition p453 : pref := [T 1 12 m294; T (-1) 27 m295; T (-1) 12 m298; T 1 27 m306].
Definition p454 : pref := [T 1 12 m294; T 1 27 m295; T (-1) 12 m298; T (-1) 27 m306].
Definition p455 : pref := [T 1 12 m495; T (-1) 12 m851].
Definition p456 : pref := [T 1 18 m294; T 1 81 m295; T 4 81 m297; T 1 18 m298; T (-5) 81 m306; T (-1) 9 m391].
Definition p457 : pref := [T (-1) 18 m294; T (-1) 81 m295; T (-4) 81 m297; T (-1) 18 m298; T 5 81 m306; T 1 9 m391].
Definition p458 : pref := [T (-1) 18 m294; T 1 81 m295; T 4 81 m297; T (-1) 18 m298; T (-5) 81 m306; T 1 9 m391].
Definition p459 : pref := [T 17 54 m392; T (-13) 216 m393; T (-1) 81 m594; T 1 81 m595; T (-4) 27 m601].
Definition p460 : pref := [T (-5) 108 m396; T 41 108 m397; T 2 81 m597; T 2 81 m598; T (-4) 81 m599; T 8 27 m603; T (-25) 27 m857].
Definition p461 : pref := [T 1 12 m4; T (-1) 6 m5; T 1 12 m6; T 1 6 m20; T (-1) 3 m21; T 1 6 m22; T (-1) 9 m23; T 2 9 m24; T (-1) 9 m25].
Definition p462 : pref := [T 7 72 m32; T (-1417) 29160 m33; T 8 81 m34; T (-362) 729 m36; T 16 81 m37; T (-7) 36 m38; T 152 1215 m39; T (-8) 27 m40; T (-2) 9 m41; T 7 72 m42; T 853 1620 m43; T 1 9 m45; T (-23) 216 m46; T 1 18 m47; T 1 18 m48; T (-2) 9 m49; T 32 1215 m50; T 4 9 m51; T 32 1215 m52; T (-2) 9 m53; T (-64) 1215 m54; T 1 12 m239; T (-1) 6 m240; T (-1) 6 m241; T 1 12 m242; T 1 3 m243; T (-1) 6 m244; T 1 18 m280; T (-2) 9 m281; T (-10) 243 m282; T 64 243 m283; T (-1) 9 m284; T 4 9 m285; T (-40) 81 m286; T 1 18 m287; T (-2) 9 m288; T 22 81 m289; T (-1) 3 m406; T 1 3 m407; T (-28) 9 m408; T 112 27 m409; T (-2) 3 m410; T (-19) 27 m411; T 1 3 m412; T (-19) 243 m512; T (-17) 54 m513; T (-92) 243 m514; T 52 81 m515; T 92 243 m516; T (-5) 27 m517; T (-52) 81 m518; T 319 972 m519; T 1 3 m520; T 1 4 m521; T (-1) 6 m522; T (-1) 6 m523].
Definition p463 : pref := [T (-1) 6 m55; T 1 3 m56; T (-1) 6 m57; T (-1) 6 m245; T 1 3 m246; T (-1) 6 m247].
Definition p464 : pref := [T (-1) 6 m58; T (-31) 18 m59; T (-8) 9 m60; T 4 9 m61; T 8 9 m62; T (-5) 9 m63; T (-2) 3 m64; T (-10) 9 m65; T (-8) 9 m66; T 1 9 m67; T 5 6 m68; T 14 9 m69; T 10 9 m70; T 5 18 m71; T 8 9 m72; T 1 9 m73; T (-1) 9 m74; T (-1) 9 m75; T 4 9 m76; T (-16) 9 m77; T 20 9 m78; T 16 9 m79; T (-4) 9 m80; T (-20) 9 m81; T (-1) 3 m248; T (-5) 3 m249; T 4 9 m250; T (-5) 9 m251; T (-4) 3 m252; T 1 9 m253; T 5 3 m254; T 4 3 m255; T 1 3 m256; T (-16) 9 m290; T 20 9 m291; T (-4) 9 m292; T 8 3 m413; T (-10) 3 m414; T 2 3 m415; T (-8) 3 m524; T (-40) 9 m525; T 2 1 m526; T 1 3 m527; T 53 9 m528; T 2 1 m529; T 1 3 m530; T (-7) 9 m531; T (-8) 3 m532; T (-2) 3 m533; T 1 3 m534; T 1 3 m535].
Definition p465 : pref := [T (-5) 36 m4; T 5 18 m5; T (-5) 36 m6; T 11 36 m82; T (-11) 18 m84; T (-4) 9 m85; T 11 36 m86; T 2 9 m87; T 1 9 m88; T 1 9 m89; T (-4) 9 m90; T 8 9 m91; T (-4) 9 m92; T 5 18 m257; T (-4) 9 m258; T (-5) 9 m259; T 5 18 m260; T 8 9 m261; T (-4) 9 m262; T 8 9 m291; T (-4) 9 m292; T (-4) 9 m293; T (-4) 3 m414; T 2 3 m415; T 2 3 m416; T (-1) 1 m536; T 1 2 m537; T 2 3 m538; T 1 2 m539; T (-1) 3 m540; T (-1) 3 m541].
Definition p466 : pref := [T 935 11664 m4; T 167 810 m5; T 1 27 m6; T (-4) 81 m23; T (-1) 9 m82; T (-1) 6 m83; T 1 36 m84; T (-1) 9 m85; T (-1) 16 m86; T 1 36 m88; T 1 9 m90; T 2 9 m91; T (-362) 729 m93; T 16 81 m94; T (-158) 1215 m95; T (-4) 27 m96; T 32 1215 m97; T (-32) 1215 m98; T (-1) 9 m257; T 1 36 m258; T 1 18 m259; T (-5) 72 m260; T 1 9 m261; T 1 9 m262; T 2 9 m291; T 1 9 m293; T (-1) 18 m294; T 5 243 m295; T 64 243 m296; T (-20) 81 m297; T (-1) 36 m298; T (-1) 3 m414; T (-1) 6 m416; T (-28) 9 m417; T 119 54 m418; T 1 27 m419; T (-1) 2 m536; T 167 1944 m537; T 1 3 m538; T (-1) 12 m540; T 19 486 m542; T (-92) 243 m543; T 26 81 m544; T 92 243 m545; T (-26) 81 m546].
Definition p467 : pref := [T 1 6 m58; T 31 18 m59; T 2 3 m60; T (-4) 9 m61; T (-8) 9 m62; T 5 9 m63; T 2 3 m64; T 2 3 m65; T 8 9 m66; T (-1) 9 m67; T (-5) 6 m68; T (-4) 3 m69; T (-2) 3 m70; T (-1) 6 m71; T (-8) 9 m72; T (-4) 9 m76; T 16 9 m77; T (-20) 9 m78; T (-16) 9 m79; T 4 9 m80; T 20 9 m81; T 1 3 m248; T 5 3 m249; T (-4) 9 m250; T 5 9 m251; T 4 3 m252; T (-1) 9 m253; T (-5) 3 m254; T (-4) 3 m255; T (-1) 3 m256; T 16 9 m290; T (-20) 9 m291; T 4 9 m292; T (-8) 3 m413; T 2 1 m414; T 2 3 m416; T 2 1 m524; T 40 9 m525; T (-2) 1 m526; T (-41) 9 m528; T (-2) 1 m529; T 1 9 m531; T 2 1 m532].
Definition p468 : pref := [T (-17) 216 m99; T (-88) 3645 m100; T 4 81 m101; T 1 3 m102; T (-2) 9 m103; T (-1048) 729 m104; T 32 81 m105; T (-4) 9 m106; T (-1) 36 m107; T 2722 3645 m108; T (-28) 81 m109; T 1129 729 m110; T (-32) 81 m111; T 4 9 m112; T 1 48 m113; T 4807 14580 m114; T (-4) 81 m115; T (-3937) 3645 m116; T 28 81 m117; T (-1) 9 m118; T 37 432 m119; T (-1) 9 m120; T (-1) 18 m121; T 64 1215 m122; T 8 9 m123; T (-2) 9 m124; T (-8) 9 m125; T 64 1215 m126; T 2 9 m127; T (-64) 1215 m128; T (-64) 1215 m129; T (-1) 24 m263; T 1 6 m264; T (-2) 9 m265; T 2 3 m267; T 1 72 m268; T (-2) 3 m270; T 8 9 m299; T 128 243 m300; T (-1) 9 m301; T (-2) 9 m302; T (-148) 243 m303; T 1 36 m304; T 38 243 m305; T (-44) 9 m420; T (-4) 3 m421; T 67 18 m422; T 1 3 m423; T (-17) 108 m424; T 133 486 m547; T 728 243 m548; T (-184) 243 m549; T 188 243 m550; T 368 243 m551; T (-13) 243 m552; T (-619) 243 m553; T (-184) 243 m554; T 5 24 m555; T (-175) 243 m556; T (-1) 1 m557; T (-25) 72 m558; T 1 3 m559; T 1 6 m560].
Definition p469 : pref := [T (-1) 3 m130; T (-4) 3 m131; T 5 3 m132; T 1 3 m425; T (-16) 1 m426; T 64 3 m427; T (-17) 3 m428].
Definition p470 : pref := [T (-61) 243 m4; T 317 243 m5; T (-2) 9 m6; T (-34) 81 m20; T 74 81 m21; T 8 27 m23; T (-16) 27 m24; T (-202) 243 m95; T 8 27 m96; T 1 6 m294; T 10 81 m295; T 16 81 m297; T (-1) 6 m298; T (-26) 81 m306; T (-7) 3 m418; T 7 3 m419; T (-40) 81 m561].
Definition p471 : pref := [T 253 486 m4; T 259 486 m5; T (-2) 9 m6; T (-32) 27 m15; T (-34) 81 m20; T 74 81 m21; T 8 27 m23; T (-16) 27 m24; T (-202) 243 m95; T 8 27 m96; T 1 6 m294; T 10 81 m295; T 16 81 m297; T (-1) 6 m298; T (-26) 81 m306; T (-7) 3 m418; T 95 27 m419; T (-40) 81 m561].
Definition p472 : pref := [T (-82) 243 m4; T 31 486 m5; T (-1) 18 m6; T (-1) 81 m20; T (-25) 81 m21; T 2 27 m23; T 2 27 m24; T 80 243 m95; T (-4) 27 m96; T 1 24 m294; T (-5) 81 m295; T (-8) 81 m297; T 1 12 m298; T 13 81 m306; T 7 6 m418; T (-7) 6 m419; T 26 81 m561].
Definition p473 : pref := [T 4 27 m4; T (-4) 27 m5; T (-1) 3 m161; T 1 3 m164; T 1 3 m310; T (-4) 27 m315; T (-1) 3 m316; T 4 27 m317].
Definition p474 : pref := [T (-1) 27 m4; T 1 27 m5; T 1 24 m161; T 1 12 m164; T (-1) 24 m310; T 1 27 m315; T (-1) 12 m316; T (-1) 27 m317].
Definition p475 : pref := [T 1 16 m7; T 1 16 m8; T 1 24 m9; T (-1) 12 m10; T 1 6 m11; T (-1) 8 m17; T (-1) 16 m217; T (-1) 16 m218; T (-1) 24 m379; T 1 12 m380; T (-1) 6 m381; T 1 8 m493].
Definition p476 : pref := [T (-5) 48 m176; T (-311) 432 m177; T 769 432 m178; T (-151) 144 m179; T 5 48 m180; T 311 432 m181; T (-769) 432 m182; T 151 144 m183; T (-4) 27 m184; T 4 27 m219; T (-7) 24 m329; T 13 18 m330; T (-109) 72 m331; T 25 12 m332; T (-59) 54 m333; T 7 24 m334; T (-13) 18 m335; T 109 72 m336; T (-25) 12 m337; T 59 54 m338; T (-4) 27 m339; T 4 27 m382; T (-179) 216 m459; T (-1) 36 m460; T 5 24 m461; T (-16) 27 m462; T 179 216 m463; T 1 36 m464; T (-5) 24 m465; T 16 27 m494].
Definition p477 : pref := [T 1 1 m220; T (-59) 54 m221; T (-35) 54 m222; T 17 27 m223; T (-1) 1 m224; T 59 54 m225; T 35 54 m226; T (-17) 27 m227; T 5 3 m384; T (-3) 1 m385; T 1 9 m387; T (-5) 3 m388; T 3 1 m389; T (-1) 9 m390; T (-5) 3 m496; T 3 1 m497; T (-1) 9 m499; T 5 3 m500; T (-3) 1 m501; T 1 9 m502; T (-5) 9 m600; T 5 9 m605; T 5 9 m920; T (-5) 9 m921].
Definition p478 : pref := [T 1 6 m166; T (-179) 108 m167; T 307 108 m168; T (-13) 9 m169; T 4 27 m170; T (-1) 6 m171; T 179 108 m172; T (-307) 108 m173; T 13 9 m174; T (-4) 27 m175; T (-4) 9 m319; T 1 9 m320; T 7 6 m321; T (-25) 27 m322; T 4 27 m323; T 4 9 m324; T (-1) 9 m325; T (-7) 6 m326; T 25 27 m327; T (-4) 27 m328; T 16 27 m451; T (-19) 27 m452; T (-5) 18 m453; T 1 3 m454; T (-16) 27 m455; T 19 27 m456; T 5 18 m457; T (-1) 3 m458].
Definition p479 : pref := [T (-1) 48 m176; T 3 16 m177; T (-5) 16 m178; T 7 48 m179; T (-1) 16 m180; T 277 432 m181; T (-479) 432 m182; T 83 144 m183; T (-2) 27 m184; T 1 24 m329; T (-1) 6 m330; T 3 8 m331; T (-5) 12 m332; T 1 6 m333; T (-1) 24 m334; T 7 18 m335; T (-31) 72 m336; T (-1) 6 m337; T 8 27 m338; T (-2) 27 m339; T (-1) 8 m459; T 1 4 m460; T (-1) 8 m461; T (-8) 27 m462; T 103 216 m463; T (-1) 9 m464; T (-1) 24 m465].
Definition p480 : pref := [T (-1) 32 m162; T 7 32 m163; T 1 16 m312; T (-1) 8 m313; T 1 4 m314; T (-3) 16 m450; T (-1) 16 m918; T 1 16 m919].
Definition p481 : pref := [T 1 9 m228; T 1 9 m229; T 1 9 m394; T 1 9 m395; T (-1) 9 m596; T (-1) 9 m602].
Definition p482 : pref := [T (-1) 6 m161; T 1 6 m164].
Definition p483 : pref := [T 1 6 m161; T (-1) 6 m164].
Definition p484 : pref := [T 1 24 m7; T (-7) 24 m8; T (-1) 12 m9; T 1 6 m10; T (-1) 3 m11; T 1 4 m17; T (-1) 24 m217; T 7 24 m218; T 1 12 m379; T (-1) 6 m380; T 1 3 m381; T (-1) 4 m493].
Definition p485 : pref := [T 1 6 m294; T (-2) 27 m295; T (-1) 6 m298; T 2 27 m306].
Definition p486 : pref := [T (-1) 6 m294; T 2 27 m295; T 1 6 m298; T (-2) 27 m306].
Definition p487 : pref := [T (-1) 6 m294; T (-2) 27 m295; T 1 6 m298; T 2 27 m306].
Definition p488 : pref := [T (-1) 9 m294; T (-2) 81 m295; T (-8) 81 m297; T (-1) 9 m298; T 10 81 m306; T 2 9 m391].
Definition p489 : pref := [T 1 9 m294; T 2 81 m295; T 8 81 m297; T 1 9 m298; T (-10) 81 m306; T (-2) 9 m391].
Definition p490 : pref := [T 1 9 m294; T (-2) 81 m295; T (-8) 81 m297; T 1 9 m298; T 10 81 m306; T (-2) 9 m391].
Definition p491 : pref := [T (-17) 27 m392; T 13 108 m393; T 2 81 m594; T (-2) 81 m595; T 8 27 m601].
Definition p492 : pref := [T 5 54 m396; T (-41) 54 m397; T (-4) 81 m597; T (-4) 81 m598; T 8 81 m599; T (-16) 27 m603; T 25 27 m604].
Definition p493 : pref := [T 19 12 m4; T (-17) 24 m5; T (-1) 2 m6; T (-1) 36 m23; T 1 36 m24; T 1 8 m294; T 1 16 m629; T (-29) 24 m770; T 5 12 m771; T 37 24 m772; T (-3) 8 m773; T 3 8 m922].
Definition p494 : pref := [T 5 24 m4; T (-1) 6 m5; T (-1) 24 m6; T 5 12 m20; T (-1) 3 m21; T (-1) 12 m22; T (-5) 18 m23; T 2 9 m24; T 1 18 m25].
Definition p495 : pref := [T (-7) 144 m32; T (-10409) 58320 m33; T (-4) 81 m34; T (-1) 6 m35; T (-362) 729 m36; T 16 81 m37; T (-7) 36 m38; T 254 405 m39; T (-4) 9 m40; T (-2) 9 m41; T 35 144 m42; T 109 4860 m43; T 8 27 m44; T 5 18 m45; T 11 432 m46; T 5 36 m47; T (-1) 36 m48; T 1 9 m49; T 32 1215 m50; T 4 9 m51; T 32 1215 m52; T (-5) 9 m53; T (-64) 1215 m54; T (-1) 24 m239; T (-5) 12 m240; T (-1) 6 m241; T 5 24 m242; T 1 3 m243; T 1 12 m244; T (-1) 36 m280; T 1 9 m281; T (-25) 243 m282; T 64 243 m283; T (-1) 9 m284; T 4 9 m285; T (-16) 27 m286; T 5 36 m287; T (-5) 9 m288; T 35 81 m289; T (-1) 6 m407; T (-28) 9 m408; T 287 54 m409; T (-2) 3 m410; T (-119) 54 m411; T 5 6 m412; T 23 243 m512; T 5 162 m513; T (-92) 243 m514; T 22 27 m515; T 92 243 m516; T (-43) 81 m517; T (-22) 27 m518; T 1031 1944 m519; T 1 3 m520; T (-1) 8 m521; T (-5) 12 m522; T 1 12 m523].
Definition p496 : pref := [T 1 12 m55; T 1 3 m56; T (-5) 12 m57; T 1 12 m245; T 1 3 m246; T (-5) 12 m247].
Definition p497 : pref := [T (-5) 12 m58; T (-83) 36 m59; T (-11) 9 m60; T 4 9 m61; T 8 9 m62; T (-13) 18 m63; T (-2) 3 m64; T (-13) 9 m65; T (-8) 9 m66; T 5 18 m67; T 13 12 m68; T 17 9 m69; T 13 9 m70; T 37 36 m71; T 11 9 m72; T (-1) 18 m73; T (-11) 18 m74; T 1 18 m75; T 10 9 m76; T (-16) 9 m77; T 26 9 m78; T 16 9 m79; T (-10) 9 m80; T (-26) 9 m81; T (-5) 6 m248; T (-13) 6 m249; T 4 9 m250; T (-13) 18 m251; T (-4) 3 m252; T 5 18 m253; T 13 6 m254; T 4 3 m255; T 5 6 m256; T (-16) 9 m290; T 26 9 m291; T (-10) 9 m292; T 8 3 m413; T (-13) 3 m414; T 5 3 m415; T (-11) 3 m524; T (-40) 9 m525; T 2 1 m526; T 11 6 m527; T 145 18 m528; T 2 1 m529; T (-1) 6 m530; T (-71) 18 m531; T (-11) 3 m532; T 1 3 m533; T 11 6 m534; T (-1) 6 m535].
Definition p498 : pref := [T (-25) 72 m4; T 5 18 m5; T 5 72 m6; T (-11) 72 m82; T (-1) 3 m83; T (-11) 18 m84; T (-4) 9 m85; T 55 72 m86; T 5 9 m87; T 5 18 m88; T (-1) 18 m89; T 2 9 m90; T 8 9 m91; T (-10) 9 m92; T (-5) 36 m257; T (-10) 9 m258; T (-5) 9 m259; T 25 36 m260; T 8 9 m261; T 2 9 m262; T 8 9 m291; T (-10) 9 m292; T 2 9 m293; T (-4) 3 m414; T 5 3 m415; T (-1) 3 m416; T (-1) 1 m536; T 5 4 m537; T 2 3 m538; T (-1) 4 m539; T (-5) 6 m540; T 1 6 m541].
Definition p499 : pref := [T (-3257) 23328 m4; T 1253 3240 m5; T 1 108 m6; T 2 81 m23; T 1 18 m82; T (-1) 12 m83; T 1 36 m84; T (-1) 9 m85; T (-5) 32 m86; T 5 72 m88; T (-1) 18 m90; T 2 9 m91; T (-362) 729 m93; T 16 81 m94; T 49 405 m95; T (-2) 9 m96; T 32 1215 m97; T (-32) 1215 m98; T 1 18 m257; T 5 72 m258; T 1 18 m259; T (-25) 144 m260; T 1 9 m261; T (-1) 18 m262; T 2 9 m291; T (-1) 18 m293; T 1 36 m294; T 25 486 m295; T 64 243 m296; T (-8) 27 m297; T (-5) 72 m298; T (-1) 3 m414; T 1 12 m416; T (-28) 9 m417; T 301 108 m418; T (-7) 54 m419; T (-1) 2 m536; T 1399 3888 m537; T 1 3 m538; T (-5) 24 m540; T (-23) 486 m542; T (-92) 243 m543; T 11 27 m544; T 92 243 m545; T (-11) 27 m546].
Definition p500 : pref := [T 5 12 m58; T 71 36 m59; T 2 3 m60; T (-4) 9 m61; T (-8) 9 m62; T 13 18 m63; T 2 3 m64; T 1 1 m65; T 8 9 m66; T (-5) 18 m67; T (-13) 12 m68; T (-4) 3 m69; T (-1) 1 m70; T (-3) 4 m71; T (-8) 9 m72; T 1 3 m74; T (-10) 9 m76; T 16 9 m77; T (-26) 9 m78; T (-16) 9 m79; T 10 9 m80; T 26 9 m81; T 5 6 m248; T 13 6 m249; T (-4) 9 m250; T 13 18 m251; T 4 3 m252; T (-5) 18 m253; T (-13) 6 m254; T (-4) 3 m255; T (-5) 6 m256; T 16 9 m290; T (-26) 9 m291; T 10 9 m292; T (-8) 3 m413; T 3 1 m414; T (-1) 3 m416; T 3 1 m524; T 40 9 m525; T (-2) 1 m526; T (-1) 1 m527; T (-121) 18 m528; T (-2) 1 m529; T 41 18 m531; T 3 1 m532; T (-1) 1 m534].
Definition p501 : pref := [T (-25) 432 m99; T 23281 29160 m100; T (-14) 81 m101; T 1 3 m102; T (-2) 9 m103; T (-1048) 729 m104; T 32 81 m105; T (-4) 9 m106; T 1 18 m107; T 12149 7290 m108; T (-46) 81 m109; T 2501 1458 m110; T (-32) 81 m111; T 4 9 m112; T 5 96 m113; T (-9511) 29160 m114; T 14 81 m115; T (-14579) 7290 m116; T 46 81 m117; T (-5) 18 m118; T (-79) 864 m119; T (-5) 18 m120; T 1 36 m121; T 64 1215 m122; T 8 9 m123; T (-5) 9 m124; T (-8) 9 m125; T 64 1215 m126; T 5 9 m127; T (-64) 1215 m128; T (-64) 1215 m129; T (-5) 48 m263; T 5 12 m264; T (-2) 9 m265; T 1 12 m266; T 2 3 m267; T 5 144 m268; T (-1) 4 m269; T (-2) 3 m270; T 8 9 m299; T 128 243 m300; T (-1) 9 m301; T (-5) 9 m302; T (-184) 243 m303; T 5 72 m304; T 65 243 m305; T (-44) 9 m420; T (-4) 3 m421; T 179 36 m422; T 5 6 m423; T (-169) 216 m424; T 314 243 m547; T 791 243 m548; T (-184) 243 m549; T 251 243 m550; T 368 243 m551; T (-76) 243 m552; T (-745) 243 m553; T (-184) 243 m554; T 1 48 m555; T (-2005) 972 m556; T (-1) 1 m557; T 19 144 m558; T 5 6 m559; T (-1) 12 m560].
Definition p502 : pref := [T (-5) 6 m130; T (-4) 3 m131; T 13 6 m132; T 5 6 m425; T (-16) 1 m426; T 82 3 m427; T (-73) 6 m428].
Definition p503 : pref := [T 101 243 m4; T (-335) 486 m5; T (-1) 18 m6; T 20 81 m20; T (-46) 81 m21; T (-4) 27 m23; T 8 27 m24; T 80 243 m95; T (-4) 27 m96; T (-1) 12 m294; T (-5) 81 m295; T (-8) 81 m297; T 1 12 m298; T 13 81 m306; T 7 6 m418; T (-7) 6 m419; T 26 81 m561].
Definition p504 : pref := [T (-113) 972 m4; T 379 972 m5; T 1 18 m6; T (-14) 27 m15; T (-20) 81 m20; T 46 81 m21; T 4 27 m23; T (-8) 27 m24; T (-80) 243 m95; T 4 27 m96; T 1 12 m294; T 5 81 m295; T 8 81 m297; T (-1) 12 m298; T (-13) 81 m306; T (-7) 6 m418; T 91 54 m419; T (-26) 81 m561].
Definition p505 : pref := [T (-241) 972 m4; T 511 486 m5; T 1 36 m6; T (-13) 81 m20; T 53 81 m21; T 2 27 m23; T (-10) 27 m24; T (-202) 243 m95; T 8 27 m96; T 1 24 m294; T 10 81 m295; T 16 81 m297; T (-1) 6 m298; T (-26) 81 m306; T (-7) 3 m418; T 7 3 m419; T (-40) 81 m561].
Definition p506 : pref := [T (-1) 27 m4; T 1 27 m5; T 1 12 m161; T (-1) 12 m164; T (-1) 12 m310; T 1 27 m315; T 1 12 m316; T (-1) 27 m317].
Definition p507 : pref := [T (-1) 18 m228; T 5 18 m229; T (-1) 18 m394; T 5 18 m395; T (-1) 9 m596; T (-1) 9 m602].
Definition p508 : pref := [T 1 18 m294; T (-5) 81 m295; T (-8) 81 m297; T (-5) 18 m298; T 13 81 m306; T 2 9 m391].
Definition p509 : pref := [T (-1) 18 m294; T 5 81 m295; T 8 81 m297; T 5 18 m298; T (-13) 81 m306; T (-2) 9 m391].
Definition p510 : pref := [T (-1) 18 m294; T (-5) 81 m295; T (-8) 81 m297; T 5 18 m298; T 13 81 m306; T (-2) 9 m391].
Definition p511 : pref := [T (-23) 27 m392; T 65 216 m393; T 2 81 m594; T (-2) 81 m595; T 8 27 m601].
Definition p512 : pref := [T 25 108 m396; T (-145) 108 m397; T (-4) 81 m597; T (-4) 81 m598; T 8 81 m599; T (-16) 27 m603; T 31 27 m604].
Definition p513 : pref := [T (-5) 12 m4; T 1 3 m5; T 1 12 m6; T (-5) 6 m20; T 2 3 m21; T 1 6 m22; T 5 9 m23; T (-4) 9 m24; T (-1) 9 m25].
Definition p514 : pref := [T 7 72 m32; T 36449 29160 m33; T (-16) 81 m34; T 1 3 m35; T (-656) 729 m36; T 64 81 m37; T 7 18 m38; T 1342 405 m39; T (-16) 9 m40; T 4 9 m41; T (-35) 72 m42; T (-4322) 1215 m43; T 32 27 m44; T (-5) 9 m45; T (-23) 216 m46; T (-5) 18 m47; T 1 18 m48; T (-2) 9 m49; T (-64) 1215 m50; T (-8) 9 m51; T (-64) 1215 m52; T 10 9 m53; T 128 1215 m54; T 1 12 m239; T 5 6 m240; T 1 3 m241; T (-5) 12 m242; T (-2) 3 m243; T (-1) 6 m244; T 1 18 m280; T (-2) 9 m281; T 50 243 m282; T (-128) 243 m283; T 2 9 m284; T (-8) 9 m285; T 32 27 m286; T (-5) 18 m287; T 10 9 m288; T (-70) 81 m289; T 1 3 m407; T 56 9 m408; T (-287) 27 m409; T 4 3 m410; T 119 27 m411; T (-5) 3 m412; T 38 243 m512; T 187 81 m513; T (-224) 243 m514; T 56 27 m515; T 224 243 m516; T (-106) 81 m517; T (-56) 27 m518; T (-1367) 972 m519; T (-2) 3 m520; T 1 4 m521; T 5 6 m522; T (-1) 6 m523].
Definition p515 : pref := [T (-1) 6 m55; T (-2) 3 m56; T 5 6 m57; T (-1) 6 m245; T (-2) 3 m246; T 5 6 m247].
Definition p516 : pref := [T 5 6 m58; T 83 18 m59; T 22 9 m60; T (-8) 9 m61; T (-16) 9 m62; T 13 9 m63; T 4 3 m64; T 26 9 m65; T 16 9 m66; T (-5) 9 m67; T (-13) 6 m68; T (-34) 9 m69; T (-26) 9 m70; T (-37) 18 m71; T (-22) 9 m72; T 1 9 m73; T 11 9 m74; T (-1) 9 m75; T (-20) 9 m76; T 32 9 m77; T (-52) 9 m78; T (-32) 9 m79; T 20 9 m80; T 52 9 m81; T 5 3 m248; T 13 3 m249; T (-8) 9 m250; T 13 9 m251; T 8 3 m252; T (-5) 9 m253; T (-13) 3 m254; T (-8) 3 m255; T (-5) 3 m256; T 32 9 m290; T (-52) 9 m291; T 20 9 m292; T (-16) 3 m413; T 26 3 m414; T (-10) 3 m415; T 22 3 m524; T 80 9 m525; T (-4) 1 m526; T (-11) 3 m527; T (-145) 9 m528; T (-4) 1 m529; T 1 3 m530; T 71 9 m531; T 22 3 m532; T (-2) 3 m533; T (-11) 3 m534; T 1 3 m535].
Definition p517 : pref := [T 25 36 m4; T (-5) 9 m5; T (-5) 36 m6; T 11 36 m82; T 2 3 m83; T 11 9 m84; T 8 9 m85; T (-55) 36 m86; T (-10) 9 m87; T (-5) 9 m88; T 1 9 m89; T (-4) 9 m90; T (-16) 9 m91; T 20 9 m92; T 5 18 m257; T 20 9 m258; T 10 9 m259; T (-25) 18 m260; T (-16) 9 m261; T (-4) 9 m262; T (-16) 9 m291; T 20 9 m292; T (-4) 9 m293; T 8 3 m414; T (-10) 3 m415; T 2 3 m416; T 2 1 m536; T (-5) 2 m537; T (-4) 3 m538; T 1 2 m539; T 5 3 m540; T (-1) 3 m541].
Definition p518 : pref := [T (-1951) 11664 m4; T (-1253) 1620 m5; T 1 27 m6; T 8 81 m23; T (-1) 9 m82; T 1 6 m83; T (-1) 18 m84; T 2 9 m85; T 5 16 m86; T (-5) 36 m88; T 1 9 m90; T (-4) 9 m91; T (-656) 729 m93; T 64 81 m94; T 827 405 m95; T (-8) 9 m96; T (-64) 1215 m97; T 64 1215 m98; T (-1) 9 m257; T (-5) 36 m258; T (-1) 9 m259; T 25 72 m260; T (-2) 9 m261; T 1 9 m262; T (-4) 9 m291; T 1 9 m293; T (-1) 18 m294; T (-25) 243 m295; T (-128) 243 m296; T 16 27 m297; T 5 36 m298; T 2 3 m414; T (-1) 6 m416; T 56 9 m417; T (-301) 54 m418; T 7 27 m419; T 1 1 m536; T (-1063) 1944 m537; T (-2) 3 m538; T 5 12 m540; T (-19) 243 m542; T (-224) 243 m543; T 28 27 m544; T 224 243 m545; T (-28) 27 m546].
Definition p519 : pref := [T (-5) 6 m58; T (-71) 18 m59; T (-4) 3 m60; T 8 9 m61; T 16 9 m62; T (-13) 9 m63; T (-4) 3 m64; T (-2) 1 m65; T (-16) 9 m66; T 5 9 m67; T 13 6 m68; T 8 3 m69; T 2 1 m70; T 3 2 m71; T 16 9 m72; T (-2) 3 m74; T 20 9 m76; T (-32) 9 m77; T 52 9 m78; T 32 9 m79; T (-20) 9 m80; T (-52) 9 m81; T (-5) 3 m248; T (-13) 3 m249; T 8 9 m250; T (-13) 9 m251; T (-8) 3 m252; T 5 9 m253; T 13 3 m254; T 8 3 m255; T 5 3 m256; T (-32) 9 m290; T 52 9 m291; T (-20) 9 m292; T 16 3 m413; T (-6) 1 m414; T 2 3 m416; T (-6) 1 m524; T (-80) 9 m525; T 4 1 m526; T 2 1 m527; T 121 9 m528; T 4 1 m529; T (-41) 9 m531; T (-6) 1 m532; T 2 1 m534].
Definition p520 : pref := [T 85 216 m99; T 18149 14580 m100; T (-56) 81 m101; T (-2) 3 m102; T 4 9 m103; T (-664) 729 m104; T 128 81 m105; T 8 9 m106; T (-1) 9 m107; T 10996 3645 m108; T (-184) 81 m109; T 259 729 m110; T (-128) 81 m111; T (-8) 9 m112; T (-5) 48 m113; T (-31919) 14580 m114; T 56 81 m115; T (-8566) 3645 m116; T 184 81 m117; T 5 9 m118; T (-41) 432 m119; T 5 9 m120; T (-1) 18 m121; T (-128) 1215 m122; T (-16) 9 m123; T 10 9 m124; T 16 9 m125; T (-128) 1215 m126; T (-10) 9 m127; T 128 1215 m128; T 128 1215 m129; T 5 24 m263; T (-5) 6 m264; T 4 9 m265; T (-1) 6 m266; T (-4) 3 m267; T (-5) 72 m268; T 1 2 m269; T 4 3 m270; T (-16) 9 m299; T (-256) 243 m300; T 2 9 m301; T 10 9 m302; T 368 243 m303; T (-5) 36 m304; T (-130) 243 m305; T 88 9 m420; T 8 3 m421; T (-179) 18 m422; T (-5) 3 m423; T 169 108 m424; T 32 243 m547; T (-436) 243 m548; T (-448) 243 m549; T 644 243 m550; T 896 243 m551; T (-178) 243 m552; T (-802) 243 m553; T (-448) 243 m554; T (-1) 24 m555; T 1345 486 m556; T 2 1 m557; T (-19) 72 m558; T (-5) 3 m559; T 1 6 m560].
Definition p521 : pref := [T 5 3 m130; T 8 3 m131; T (-13) 3 m132; T (-5) 3 m425; T 32 1 m426; T (-164) 3 m427; T 73 3 m428].
Definition p522 : pref := [T 446 243 m4; T (-718) 243 m5; T (-2) 9 m6; T 68 81 m20; T (-124) 81 m21; T (-16) 27 m23; T 32 27 m24; T 326 243 m95; T (-16) 27 m96; T 1 6 m294; T 10 81 m295; T 16 81 m297; T (-1) 6 m298; T (-26) 81 m306; T (-7) 3 m418; T 7 3 m419; T 56 81 m561].
Definition p523 : pref := [T (-1183) 486 m4; T 1727 486 m5; T 2 9 m6; T 28 27 m15; T (-68) 81 m20; T 124 81 m21; T 16 27 m23; T (-32) 27 m24; T (-326) 243 m95; T 16 27 m96; T (-1) 6 m294; T (-10) 81 m295; T (-16) 81 m297; T 1 6 m298; T 26 81 m306; T 7 3 m418; T (-91) 27 m419; T (-56) 81 m561].
Definition p524 : pref := [T 409 486 m4; T (-517) 243 m5; T (-1) 18 m6; T 2 81 m20; T (-58) 81 m21; T (-4) 27 m23; T 20 27 m24; T 326 243 m95; T (-16) 27 m96; T 1 24 m294; T 10 81 m295; T 16 81 m297; T (-1) 6 m298; T (-26) 81 m306; T (-7) 3 m418; T 7 3 m419; T 56 81 m561].
Definition p525 : pref := [T 2 27 m4; T (-2) 27 m5; T (-1) 6 m161; T 1 6 m164; T 1 6 m310; T (-2) 27 m315; T (-1) 6 m316; T 2 27 m317].
Definition p526 : pref := [T 2 27 m4; T (-2) 27 m5; T 1 24 m161; T (-1) 6 m164; T (-1) 24 m310; T (-2) 27 m315; T 1 6 m316; T 2 27 m317].
Definition p527 : pref := [T 1 9 m228; T (-5) 9 m229; T 1 9 m394; T (-5) 9 m395; T 2 9 m596; T 2 9 m602].
Definition p528 : pref := [T (-1) 9 m294; T 10 81 m295; T 16 81 m297; T 5 9 m298; T (-26) 81 m306; T (-4) 9 m391].
Definition p529 : pref := [T 1 9 m294; T (-10) 81 m295; T (-16) 81 m297; T (-5) 9 m298; T 26 81 m306; T 4 9 m391].
Definition p530 : pref := [T 1 9 m294; T 10 81 m295; T 16 81 m297; T (-5) 9 m298; T (-26) 81 m306; T 4 9 m391].
Definition p531 : pref := [T (-65) 108 m393; T (-4) 81 m594; T 4 81 m595; T (-16) 27 m601; T 23 27 m894].
Definition p532 : pref := [T (-25) 54 m396; T 145 54 m397; T 8 81 m597; T 8 81 m598; T (-16) 81 m599; T 32 27 m603; T (-62) 27 m604].
Definition p533 : pref := [T 107 1296 m143; T 1 18 m144; T (-1) 12 m435; T (-1) 120 m607; T 41 324 m608; T (-1) 9 m609; T (-41) 648 m610; T 1 18 m611; T (-23) 216 m754; T 7 54 m755; T (-7) 108 m756].
Definition p534 : pref := [T 19 2592 m157; T (-1) 36 m158; T 41 648 m612; T (-1) 18 m613; T 23 432 m757; T 7 108 m758].
Definition p535 : pref := [T 41 324 m614; T (-1) 9 m615; T (-41) 1296 m616; T 1 36 m617; T 7 54 m759; T (-7) 216 m760].
Definition p536 : pref := [T (-5) 54 m157; T 1 6 m158; T 41 216 m618; T (-1) 6 m619; T (-5) 18 m757; T 7 36 m761].
Definition p537 : pref := [T 11 108 m157; T 1 6 m158; T (-1) 6 m446; T 41 216 m618; T (-1) 6 m619; T (-5) 18 m757; T 7 36 m761].
Definition p538 : pref := [T (-1) 432 m157; T (-1) 12 m158; T 41 216 m618; T (-1) 6 m619; T 13 72 m757; T 7 36 m761].
Definition p539 : pref := [T 353 1296 m143; T (-1) 9 m144; T (-1) 12 m435; T (-1) 120 m607; T (-19) 324 m608; T 2 9 m609; T (-11) 162 m610; T (-1) 9 m611; T 19 216 m754; T (-23) 54 m755; T 8 27 m756].
Definition p540 : pref := [T (-227) 2592 m157; T 1 18 m158; T (-19) 648 m612; T 1 9 m613; T (-19) 432 m757; T (-23) 108 m758].
Definition p541 : pref := [T (-19) 324 m614; T 2 9 m615; T (-11) 324 m616; T (-1) 18 m617; T (-23) 54 m759; T 4 27 m760].
Definition p542 : pref := [T 61 216 m157; T (-1) 3 m158; T (-5) 27 m618; T 1 3 m619; T 17 36 m757; T (-5) 9 m761].
Definition p543 : pref := [T 103 216 m157; T (-1) 3 m158; T (-1) 6 m446; T (-5) 27 m618; T 1 3 m619; T 17 36 m757; T (-5) 9 m761].
Definition p544 : pref := [T 83 432 m157; T (-1) 12 m158; T (-1) 216 m618; T (-1) 6 m619; T 1 72 m757; T 13 36 m761].
Definition p545 : pref := [T (-1) 16 m7; T 7 16 m8; T 1 8 m9; T (-1) 4 m10; T 1 2 m11; T (-3) 8 m17; T (-1) 8 m923; T 1 8 m924].
Definition p546 : pref := [T 3 16 m157; T (-1) 4 m158; T 3 8 m446].
Definition p547 : pref := [T 107 1296 m143; T 1 18 m144; T (-1) 12 m435; T (-1) 120 m607; T (-19) 324 m608; T 2 9 m609; T 79 648 m610; T (-5) 18 m611; T (-23) 216 m754; T (-23) 54 m755; T 53 108 m756].
Definition p548 : pref := [T 19 2592 m157; T (-1) 36 m158; T (-19) 648 m612; T 1 9 m613; T 23 432 m757; T (-23) 108 m758].
Definition p549 : pref := [T (-19) 324 m614; T 2 9 m615; T 79 1296 m616; T (-5) 36 m617; T (-23) 54 m759; T 53 216 m760].
Definition p550 : pref := [T (-5) 54 m157; T 1 6 m158; T (-1) 216 m618; T (-1) 6 m619; T (-5) 18 m757; T 13 36 m761].
Definition p551 : pref := [T 31 108 m157; T (-1) 6 m158; T (-1) 6 m446; T 1 216 m618; T 1 6 m619; T 5 18 m757; T (-13) 36 m761].
Definition p552 : pref := [T (-1) 432 m157; T (-1) 12 m158; T (-5) 27 m618; T 1 3 m619; T 13 72 m757; T (-5) 9 m761].
Definition p553 : pref := [T 353 1296 m143; T (-1) 9 m144; T (-1) 12 m435; T (-1) 120 m607; T 41 81 m608; T (-4) 9 m609; T (-205) 324 m610; T 5 9 m611; T 19 216 m754; T 14 27 m755; T (-35) 54 m756].
Definition p554 : pref := [T (-227) 2592 m157; T 1 18 m158; T 41 162 m612; T (-2) 9 m613; T (-19) 432 m757; T 7 27 m758].
Definition p555 : pref := [T 41 81 m614; T (-4) 9 m615; T (-205) 648 m616; T 5 18 m617; T 14 27 m759; T (-35) 108 m760].
Definition p556 : pref := [T 61 216 m157; T (-1) 3 m158; T (-41) 108 m618; T 1 3 m619; T 17 36 m757; T (-7) 18 m761].
Definition p557 : pref := [T (-19) 216 m157; T 1 3 m158; T (-1) 6 m446; T 41 108 m618; T (-1) 3 m619; T (-17) 36 m757; T 7 18 m761].
Definition p558 : pref := [T 83 432 m157; T (-1) 12 m158; T (-41) 108 m618; T 1 3 m619; T 1 72 m757; T (-7) 18 m761].
Definition p559 : pref := [T (-1) 8 m4; T 1 4 m5; T (-1) 8 m6; T (-1) 4 m20; T 1 2 m21; T (-1) 4 m22; T 1 6 m23; T (-1) 3 m24; T 1 6 m25].
Definition p560 : pref := [T (-7) 48 m32; T (-6583) 19440 m33; T 2 9 m34; T (-124) 243 m36; T 4 9 m37; T 7 24 m38; T 49 30 m39; T (-2) 3 m40; T 1 3 m41; T (-7) 48 m42; T (-2609) 3240 m43; T (-1) 6 m45; T 1 48 m46; T (-1) 12 m47; T (-1) 12 m48; T 1 3 m49; T (-16) 405 m50; T (-2) 3 m51; T (-16) 405 m52; T 1 3 m53; T 32 405 m54; T (-1) 8 m239; T 1 4 m240; T 1 4 m241; T (-1) 8 m242; T (-1) 2 m243; T 1 4 m244; T (-1) 12 m280; T 1 3 m281; T 5 81 m282; T (-32) 81 m283; T 1 6 m284; T (-2) 3 m285; T 20 27 m286; T (-1) 12 m287; T 1 3 m288; T (-11) 27 m289; T 1 2 m406; T (-1) 2 m407; T 14 3 m408; T (-56) 9 m409; T 1 1 m410; T 19 18 m411; T (-1) 2 m412; T (-91) 162 m512; T 11 108 m513; T (-34) 81 m514; T 1 3 m515; T 34 81 m516; T 35 54 m517; T (-1) 3 m518; T 121 648 m519; T (-1) 2 m520; T (-3) 8 m521; T 1 4 m522; T 1 4 m523].
Definition p561 : pref := [T 1 4 m55; T (-1) 2 m56; T 1 4 m57; T 1 4 m245; T (-1) 2 m246; T 1 4 m247].
Definition p562 : pref := [T 1 4 m58; T 31 12 m59; T 4 3 m60; T (-2) 3 m61; T (-4) 3 m62; T 5 6 m63; T 1 1 m64; T 5 3 m65; T 4 3 m66; T (-1) 6 m67; T (-5) 4 m68; T (-7) 3 m69; T (-5) 3 m70; T (-5) 12 m71; T (-4) 3 m72; T (-1) 6 m73; T 1 6 m74; T 1 6 m75; T (-2) 3 m76; T 8 3 m77; T (-10) 3 m78; T (-8) 3 m79; T 2 3 m80; T 10 3 m81; T 1 2 m248; T 5 2 m249; T (-2) 3 m250; T 5 6 m251; T 2 1 m252; T (-1) 6 m253; T (-5) 2 m254; T (-2) 1 m255; T (-1) 2 m256; T 8 3 m290; T (-10) 3 m291; T 2 3 m292; T (-4) 1 m413; T 5 1 m414; T (-1) 1 m415; T 4 1 m524; T 20 3 m525; T (-3) 1 m526; T (-1) 2 m527; T (-53) 6 m528; T (-3) 1 m529; T (-1) 2 m530; T 7 6 m531; T 4 1 m532; T 1 1 m533; T (-1) 2 m534; T (-1) 2 m535].
Definition p563 : pref := [T 5 24 m4; T (-5) 12 m5; T 5 24 m6; T (-11) 24 m82; T 11 12 m84; T 2 3 m85; T (-11) 24 m86; T (-1) 3 m87; T (-1) 6 m88; T (-1) 6 m89; T 2 3 m90; T (-4) 3 m91; T 2 3 m92; T (-5) 12 m257; T 2 3 m258; T 5 6 m259; T (-5) 12 m260; T (-4) 3 m261; T 2 3 m262; T (-4) 3 m291; T 2 3 m292; T 2 3 m293; T 2 1 m414; T (-1) 1 m415; T (-1) 1 m416; T 3 2 m536; T (-3) 4 m537; T (-1) 1 m538; T (-3) 4 m539; T 1 2 m540; T 1 2 m541].
Definition p564 : pref := [T 665 7776 m4; T (-167) 540 m5; T 1 12 m6; T (-1) 9 m23; T 1 6 m82; T 1 4 m83; T (-1) 24 m84; T 1 6 m85; T 3 32 m86; T (-1) 24 m88; T (-1) 6 m90; T (-1) 3 m91; T (-124) 243 m93; T 4 9 m94; T 199 180 m95; T (-1) 3 m96; T (-16) 405 m97; T 16 405 m98; T 1 6 m257; T (-1) 24 m258; T (-1) 12 m259; T 5 48 m260; T (-1) 6 m261; T (-1) 6 m262; T (-1) 3 m291; T (-1) 6 m293; T 1 12 m294; T (-5) 162 m295; T (-32) 81 m296; T 10 27 m297; T 1 24 m298; T 1 2 m414; T 1 4 m416; T 14 3 m417; T (-119) 36 m418; T (-1) 18 m419; T 3 4 m536; T (-607) 1296 m537; T (-1) 2 m538; T 1 8 m540; T 91 324 m542; T (-34) 81 m543; T 1 6 m544; T 34 81 m545; T (-1) 6 m546].
Definition p565 : pref := [T (-1) 4 m58; T (-31) 12 m59; T (-1) 1 m60; T 2 3 m61; T 4 3 m62; T (-5) 6 m63; T (-1) 1 m64; T (-1) 1 m65; T (-4) 3 m66; T 1 6 m67; T 5 4 m68; T 2 1 m69; T 1 1 m70; T 1 4 m71; T 4 3 m72; T 2 3 m76; T (-8) 3 m77; T 10 3 m78; T 8 3 m79; T (-2) 3 m80; T (-10) 3 m81; T (-1) 2 m248; T (-5) 2 m249; T 2 3 m250; T (-5) 6 m251; T (-2) 1 m252; T 1 6 m253; T 5 2 m254; T 2 1 m255; T 1 2 m256; T (-8) 3 m290; T 10 3 m291; T (-2) 3 m292; T 4 1 m413; T (-3) 1 m414; T (-1) 1 m416; T (-3) 1 m524; T (-20) 3 m525; T 3 1 m526; T 41 6 m528; T 3 1 m529; T (-1) 6 m531; T (-3) 1 m532].
Definition p566 : pref := [T (-1) 48 m99; T (-281) 1215 m100; T 1 9 m101; T (-1) 2 m102; T 1 3 m103; T (-86) 243 m104; T 8 9 m105; T 2 3 m106; T 1 24 m107; T 6131 4860 m108; T (-7) 9 m109; T 91 486 m110; T (-8) 9 m111; T (-2) 3 m112; T (-1) 32 m113; T (-2207) 9720 m114; T (-1) 9 m115; T (-3701) 4860 m116; T 7 9 m117; T 1 6 m118; T 1 96 m119; T 1 6 m120; T 1 12 m121; T (-32) 405 m122; T (-4) 3 m123; T 1 3 m124; T 4 3 m125; T (-32) 405 m126; T (-1) 3 m127; T 32 405 m128; T 32 405 m129; T 1 16 m263; T (-1) 4 m264; T 1 3 m265; T (-1) 1 m267; T (-1) 48 m268; T 1 1 m270; T (-4) 3 m299; T (-64) 81 m300; T 1 6 m301; T 1 3 m302; T 74 81 m303; T (-1) 24 m304; T (-19) 81 m305; T 22 3 m420; T 2 1 m421; T (-67) 12 m422; T (-1) 2 m423; T 17 72 m424; T (-473) 324 m547; T (-493) 162 m548; T (-68) 81 m549; T 47 162 m550; T 136 81 m551; T 49 81 m552; T 149 162 m553; T (-68) 81 m554; T (-5) 16 m555; T 130 81 m556; T 3 2 m557; T 25 48 m558; T (-1) 2 m559; T (-1) 4 m560].
Definition p567 : pref := [T 1 2 m130; T 2 1 m131; T (-5) 2 m132; T (-1) 2 m425; T 24 1 m426; T (-32) 1 m427; T 17 2 m428].
Definition p568 : pref := [T (-37) 81 m4; T 179 81 m5; T (-1) 2 m6; T (-28) 27 m20; T 53 27 m21; T 2 3 m23; T (-4) 3 m24; T (-203) 162 m95; T 2 3 m96; T (-1) 4 m294; T (-5) 27 m295; T (-8) 27 m297; T 1 4 m298; T 13 27 m306; T 7 2 m418; T (-7) 2 m419; T (-25) 27 m561].
Definition p569 : pref := [T (-523) 324 m4; T 1091 324 m5; T (-1) 2 m6; T 16 9 m15; T (-28) 27 m20; T 53 27 m21; T 2 3 m23; T (-4) 3 m24; T (-203) 162 m95; T 2 3 m96; T (-1) 4 m294; T (-5) 27 m295; T (-8) 27 m297; T 1 4 m298; T 13 27 m306; T 7 2 m418; T (-95) 18 m419; T (-25) 27 m561].
Definition p570 : pref := [T 2 27 m4; T 53 108 m5; T 1 12 m6; T 7 18 m20; T (-5) 18 m21; T (-1) 9 m23; T (-1) 9 m24; T (-35) 54 m95; T 2 9 m96; T 1 24 m294; T (-5) 81 m295; T (-8) 81 m297; T 1 12 m298; T 13 81 m306; T 7 6 m418; T (-7) 6 m419; T (-1) 9 m561].
Definition p571 : pref := [T (-2) 9 m4; T 2 9 m5; T 1 2 m161; T (-1) 2 m164; T (-1) 2 m310; T 2 9 m315; T 1 2 m316; T (-2) 9 m317].
Definition p572 : pref := [T (-3) 32 m7; T (-3) 32 m8; T (-1) 16 m9; T 1 8 m10; T (-1) 4 m11; T 3 16 m17; T 3 32 m217; T 3 32 m218; T 1 16 m379; T (-1) 8 m380; T 1 4 m381; T (-3) 16 m493].
Definition p573 : pref := [T 5 32 m176; T 311 288 m177; T (-769) 288 m178; T 151 96 m179; T (-5) 32 m180; T (-311) 288 m181; T 769 288 m182; T (-151) 96 m183; T 2 9 m184; T (-2) 9 m219; T 7 16 m329; T (-13) 12 m330; T 109 48 m331; T (-25) 8 m332; T 59 36 m333; T (-7) 16 m334; T 13 12 m335; T (-109) 48 m336; T 25 8 m337; T (-59) 36 m338; T 2 9 m339; T (-2) 9 m382; T 179 144 m459; T 1 24 m460; T (-5) 16 m461; T 8 9 m462; T (-179) 144 m463; T (-1) 24 m464; T 5 16 m465; T (-8) 9 m494].
Definition p574 : pref := [T (-3) 2 m220; T 59 36 m221; T 35 36 m222; T (-17) 18 m223; T 3 2 m224; T (-59) 36 m225; T (-35) 36 m226; T 17 18 m227; T (-5) 2 m384; T 9 2 m385; T (-5) 3 m386; T (-1) 6 m387; T 5 2 m388; T (-9) 2 m389; T 1 6 m390; T 5 2 m496; T (-9) 2 m497; T 5 3 m498; T 1 6 m499; T (-5) 2 m500; T 9 2 m501; T (-1) 6 m502; T 5 3 m855; T (-5) 3 m871].
Definition p575 : pref := [T (-1) 4 m166; T 179 72 m167; T (-307) 72 m168; T 13 6 m169; T (-2) 9 m170; T 1 4 m171; T (-179) 72 m172; T 307 72 m173; T (-13) 6 m174; T 2 9 m175; T 2 3 m319; T (-1) 6 m320; T (-7) 4 m321; T 25 18 m322; T (-2) 9 m323; T (-2) 3 m324; T 1 6 m325; T 7 4 m326; T (-25) 18 m327; T 2 9 m328; T (-8) 9 m451; T 19 18 m452; T 5 12 m453; T (-1) 2 m454; T 8 9 m455; T (-19) 18 m456; T (-5) 12 m457; T 1 2 m458].
Definition p576 : pref := [T 1 32 m176; T (-9) 32 m177; T 15 32 m178; T (-7) 32 m179; T 3 32 m180; T (-277) 288 m181; T 479 288 m182; T (-83) 96 m183; T 1 9 m184; T (-1) 16 m329; T 1 4 m330; T (-9) 16 m331; T 5 8 m332; T (-1) 4 m333; T 1 16 m334; T (-7) 12 m335; T 31 48 m336; T 1 4 m337; T (-4) 9 m338; T 1 9 m339; T 3 16 m459; T (-3) 8 m460; T 3 16 m461; T 4 9 m462; T (-103) 144 m463; T 1 6 m464; T 1 16 m465].
Definition p577 : pref := [T (-1) 6 m228; T (-1) 6 m229; T (-1) 6 m394; T (-1) 6 m395; T 1 3 m833; T 1 3 m856].
Definition p578 : pref := [T 1 4 m161; T (-1) 4 m164].
Definition p579 : pref := [T (-1) 4 m161; T 1 4 m164].
Definition p580 : pref := [T (-1) 16 m7; T 7 16 m8; T 1 8 m9; T (-1) 4 m10; T 1 2 m11; T (-3) 8 m17; T 1 16 m217; T (-7) 16 m218; T (-1) 8 m379; T 1 4 m380; T (-1) 2 m381; T 3 8 m493].
Definition p581 : pref := [T (-1) 4 m294; T 1 9 m295; T 1 4 m298; T (-1) 9 m306].
Definition p582 : pref := [T 1 4 m294; T (-1) 9 m295; T (-1) 4 m298; T 1 9 m306].
Definition p583 : pref := [T 1 4 m294; T 1 9 m295; T (-1) 4 m298; T (-1) 9 m306].
Definition p584 : pref := [T 1 6 m294; T 1 27 m295; T 4 27 m297; T 1 6 m298; T (-5) 27 m306; T (-1) 3 m391].
Definition p585 : pref := [T (-1) 6 m294; T (-1) 27 m295; T (-4) 27 m297; T (-1) 6 m298; T 5 27 m306; T 1 3 m391].
Definition p586 : pref := [T (-1) 6 m294; T 1 27 m295; T 4 27 m297; T (-1) 6 m298; T (-5) 27 m306; T 1 3 m391].
Definition p587 : pref := [T 17 18 m392; T (-13) 72 m393; T (-1) 27 m594; T 1 27 m595; T (-4) 9 m601].
Definition p588 : pref := [T (-5) 36 m396; T 41 36 m397; T 2 27 m597; T 2 27 m598; T (-4) 27 m599; T 8 9 m603; T (-25) 9 m857].
Definition p589 : pref := [T (-3) 8 m4; T 1 4 m5; T 1 8 m6; T (-3) 4 m20; T 1 2 m21; T 1 4 m22; T 1 2 m23; T (-1) 3 m24; T (-1) 6 m25].
Definition p590 : pref := [T 7 48 m32; T 27587 19440 m33; T (-2) 9 m34; T 1 3 m35; T (-124) 243 m36; T 4 9 m37; T 7 24 m38; T 1813 810 m39; T (-10) 9 m40; T 1 3 m41; T (-7) 16 m42; T (-9589) 3240 m43; T 8 9 m44; T (-1) 2 m45; T (-3) 16 m46; T (-1) 4 m47; T 1 12 m48; T (-1) 3 m49; T (-16) 405 m50; T (-2) 3 m51; T (-16) 405 m52; T 1 1 m53; T 32 405 m54; T 1 8 m239; T 3 4 m240; T 1 4 m241; T (-3) 8 m242; T (-1) 2 m243; T (-1) 4 m244; T 1 12 m280; T (-1) 3 m281; T 5 27 m282; T (-32) 81 m283; T 1 6 m284; T (-2) 3 m285; T 76 81 m286; T (-1) 4 m287; T 1 1 m288; T (-59) 81 m289; T (-1) 6 m406; T 1 2 m407; T 14 3 m408; T (-77) 9 m409; T 1 1 m410; T 73 18 m411; T (-3) 2 m412; T 41 162 m512; T 187 108 m513; T (-34) 81 m514; T 31 27 m515; T 34 81 m516; T (-53) 54 m517; T (-31) 27 m518; T (-893) 648 m519; T (-1) 2 m520; T 3 8 m521; T 3 4 m522; T (-1) 4 m523].
Definition p591 : pref := [T (-1) 4 m55; T (-1) 2 m56; T 3 4 m57; T (-1) 4 m245; T (-1) 2 m246; T 3 4 m247].
Definition p592 : pref := [T 3 4 m58; T 15 4 m59; T 2 1 m60; T (-2) 3 m61; T (-4) 3 m62; T 7 6 m63; T 1 1 m64; T 7 3 m65; T 4 3 m66; T (-1) 2 m67; T (-7) 4 m68; T (-3) 1 m69; T (-7) 3 m70; T (-23) 12 m71; T (-2) 1 m72; T 1 6 m73; T 7 6 m74; T (-1) 6 m75; T (-2) 1 m76; T 8 3 m77; T (-14) 3 m78; T (-8) 3 m79; T 2 1 m80; T 14 3 m81; T 3 2 m248; T 7 2 m249; T (-2) 3 m250; T 7 6 m251; T 2 1 m252; T (-1) 2 m253; T (-7) 2 m254; T (-2) 1 m255; T (-3) 2 m256; T 8 3 m290; T (-14) 3 m291; T 2 1 m292; T (-4) 1 m413; T 7 1 m414; T (-3) 1 m415; T 6 1 m524; T 20 3 m525; T (-3) 1 m526; T (-7) 2 m527; T (-79) 6 m528; T (-3) 1 m529; T 1 2 m530; T 15 2 m531; T 6 1 m532; T (-1) 1 m533; T (-7) 2 m534; T 1 2 m535].
Definition p593 : pref := [T 5 8 m4; T (-5) 12 m5; T (-5) 24 m6; T 11 24 m82; T 2 3 m83; T 11 12 m84; T 2 3 m85; T (-11) 8 m86; T (-1) 1 m87; T (-1) 2 m88; T 1 6 m89; T (-2) 3 m90; T (-4) 3 m91; T 2 1 m92; T 5 12 m257; T 2 1 m258; T 5 6 m259; T (-5) 4 m260; T (-4) 3 m261; T (-2) 3 m262; T (-4) 3 m291; T 2 1 m292; T (-2) 3 m293; T 2 1 m414; T (-3) 1 m415; T 1 1 m416; T 3 2 m536; T (-9) 4 m537; T (-1) 1 m538; T 3 4 m539; T 3 2 m540; T (-1) 2 m541].
Definition p594 : pref := [T (-1741) 7776 m4; T (-181) 270 m5; T 1 12 m6; T 1 9 m23; T (-1) 6 m82; T 1 12 m83; T (-1) 24 m84; T 1 6 m85; T 9 32 m86; T (-1) 8 m88; T 1 6 m90; T (-1) 3 m91; T (-124) 243 m93; T 4 9 m94; T 2281 1620 m95; T (-5) 9 m96; T (-16) 405 m97; T 16 405 m98; T (-1) 6 m257; T (-1) 8 m258; T (-1) 12 m259; T 5 16 m260; T (-1) 6 m261; T 1 6 m262; T (-1) 3 m291; T 1 6 m293; T (-1) 12 m294; T (-5) 54 m295; T (-32) 81 m296; T 38 81 m297; T 1 8 m298; T 1 2 m414; T (-1) 4 m416; T 14 3 m417; T (-161) 36 m418; T 5 18 m419; T 3 4 m536; T (-565) 1296 m537; T (-1) 2 m538; T 3 8 m540; T (-41) 324 m542; T (-34) 81 m543; T 31 54 m544; T 34 81 m545; T (-31) 54 m546].
Definition p595 : pref := [T (-3) 4 m58; T (-37) 12 m59; T (-1) 1 m60; T 2 3 m61; T 4 3 m62; T (-7) 6 m63; T (-1) 1 m64; T (-5) 3 m65; T (-4) 3 m66; T 1 2 m67; T 7 4 m68; T 2 1 m69; T 5 3 m70; T 17 12 m71; T 4 3 m72; T (-2) 3 m74; T 2 1 m76; T (-8) 3 m77; T 14 3 m78; T 8 3 m79; T (-2) 1 m80; T (-14) 3 m81; T (-3) 2 m248; T (-7) 2 m249; T 2 3 m250; T (-7) 6 m251; T (-2) 1 m252; T 1 2 m253; T 7 2 m254; T 2 1 m255; T 3 2 m256; T (-8) 3 m290; T 14 3 m291; T (-2) 1 m292; T 4 1 m413; T (-5) 1 m414; T 1 1 m416; T (-5) 1 m524; T (-20) 3 m525; T 3 1 m526; T 2 1 m527; T 67 6 m528; T 3 1 m529; T (-9) 2 m531; T (-5) 1 m532; T 2 1 m534].
Definition p596 : pref := [T 7 16 m99; T 5041 4860 m100; T (-5) 9 m101; T (-1) 2 m102; T 1 3 m103; T (-86) 243 m104; T 8 9 m105; T 2 3 m106; T (-1) 8 m107; T 8921 4860 m108; T (-13) 9 m109; T (-71) 486 m110; T (-8) 9 m111; T (-2) 3 m112; T (-3) 32 m113; T (-17777) 9720 m114; T 5 9 m115; T (-6491) 4860 m116; T 13 9 m117; T 1 2 m118; T (-13) 96 m119; T 1 2 m120; T (-1) 12 m121; T (-32) 405 m122; T (-4) 3 m123; T 1 1 m124; T 4 3 m125; T (-32) 405 m126; T (-1) 1 m127; T 32 405 m128; T 32 405 m129; T 3 16 m263; T (-3) 4 m264; T 1 3 m265; T (-1) 6 m266; T (-1) 1 m267; T (-1) 16 m268; T 1 2 m269; T 1 1 m270; T (-4) 3 m299; T (-64) 81 m300; T 1 6 m301; T 1 1 m302; T 98 81 m303; T (-1) 8 m304; T (-37) 81 m305; T 22 3 m420; T 2 1 m421; T (-97) 12 m422; T (-3) 2 m423; T 107 72 m424; T (-5) 324 m547; T (-295) 162 m548; T (-68) 81 m549; T 245 162 m550; T 136 81 m551; T (-50) 81 m552; T (-247) 162 m553; T (-68) 81 m554; T 1 16 m555; T 413 162 m556; T 3 2 m557; T (-7) 16 m558; T (-3) 2 m559; T 1 4 m560].
Definition p597 : pref := [T 3 2 m130; T 2 1 m131; T (-7) 2 m132; T (-3) 2 m425; T 24 1 m426; T (-44) 1 m427; T 43 2 m428].
Definition p598 : pref := [T (-26) 27 m4; T 13 9 m5; T 1 6 m6; T (-2) 9 m20; T 1 3 m21; T 2 9 m23; T (-4) 9 m24; T (-35) 54 m95; T 2 9 m96; T (-1) 12 m294; T (-5) 81 m295; T (-8) 81 m297; T 1 12 m298; T 13 81 m306; T 7 6 m418; T (-7) 6 m419; T (-1) 9 m561].
Definition p599 : pref := [T (-127) 108 m4; T 179 108 m5; T 1 6 m6; T 4 9 m15; T (-2) 9 m20; T 1 3 m21; T 2 9 m23; T (-4) 9 m24; T (-35) 54 m95; T 2 9 m96; T (-1) 12 m294; T (-5) 81 m295; T (-8) 81 m297; T 1 12 m298; T 13 81 m306; T 7 6 m418; T (-29) 18 m419; T (-1) 9 m561].
Definition p600 : pref := [T (-257) 162 m4; T 839 324 m5; T 1 4 m6; T (-23) 54 m20; T 73 54 m21; T 1 3 m23; T (-1) 1 m24; T (-203) 162 m95; T 2 3 m96; T (-1) 8 m294; T (-5) 27 m295; T (-8) 27 m297; T 1 4 m298; T 13 27 m306; T 7 2 m418; T (-7) 2 m419; T (-25) 27 m561].
Definition p601 : pref := [T 1 6 m228; T (-1) 2 m229; T 1 6 m394; T (-1) 2 m395; T 1 3 m833; T 1 3 m856].
Definition p602 : pref := [T (-1) 6 m294; T 1 9 m295; T 4 27 m297; T 1 2 m298; T (-7) 27 m306; T (-1) 3 m391].
Definition p603 : pref := [T 1 6 m294; T (-1) 9 m295; T (-4) 27 m297; T (-1) 2 m298; T 7 27 m306; T 1 3 m391].
Definition p604 : pref := [T 1 6 m294; T 1 9 m295; T 4 27 m297; T (-1) 2 m298; T (-7) 27 m306; T 1 3 m391].
Definition p605 : pref := [T 25 18 m392; T (-13) 24 m393; T (-1) 27 m594; T 1 27 m595; T (-4) 9 m601].
Definition p606 : pref := [T (-5) 12 m396; T 83 36 m397; T 2 27 m597; T 2 27 m598; T (-4) 27 m599; T 8 9 m603; T (-11) 3 m857].
Definition p607 : pref := [T (-9) 8 m4; T 3 4 m5; T 3 8 m6; T (-9) 4 m20; T 3 2 m21; T 3 4 m22; T 3 2 m23; T (-1) 1 m24; T (-1) 2 m25].
Definition p608 : pref := [T 7 16 m32; T 6443 720 m33; T (-2) 1 m34; T 1 1 m35; T (-56) 9 m36; T 4 1 m37; T 7 8 m38; T 1781 90 m39; T (-10) 1 m40; T 1 1 m41; T (-21) 16 m42; T (-7723) 360 m43; T 8 1 m44; T (-3) 2 m45; T (-17) 16 m46; T (-3) 4 m47; T 1 4 m48; T (-1) 1 m49; T (-16) 135 m50; T (-2) 1 m51; T (-16) 135 m52; T 3 1 m53; T 32 135 m54; T 3 8 m239; T 9 4 m240; T 3 4 m241; T (-9) 8 m242; T (-3) 2 m243; T (-3) 4 m244; T 1 4 m280; T (-1) 1 m281; T 5 9 m282; T (-32) 27 m283; T 1 2 m284; T (-2) 1 m285; T 76 27 m286; T (-3) 4 m287; T 3 1 m288; T (-59) 27 m289; T (-1) 2 m406; T 3 2 m407; T 14 1 m408; T (-77) 3 m409; T 3 1 m410; T 73 6 m411; T (-9) 2 m412; T 13 6 m512; T 137 12 m513; T (-14) 3 m514; T 35 3 m515; T 14 3 m516; T (-55) 6 m517; T (-35) 3 m518; T (-133) 24 m519; T (-3) 2 m520; T 9 8 m521; T 9 4 m522; T (-3) 4 m523].
Definition p609 : pref := [T (-3) 4 m55; T (-3) 2 m56; T 9 4 m57; T (-3) 4 m245; T (-3) 2 m246; T 9 4 m247].
Definition p610 : pref := [T 9 4 m58; T 45 4 m59; T 6 1 m60; T (-2) 1 m61; T (-4) 1 m62; T 7 2 m63; T 3 1 m64; T 7 1 m65; T 4 1 m66; T (-3) 2 m67; T (-21) 4 m68; T (-9) 1 m69; T (-7) 1 m70; T (-23) 4 m71; T (-6) 1 m72; T 1 2 m73; T 7 2 m74; T (-1) 2 m75; T (-6) 1 m76; T 8 1 m77; T (-14) 1 m78; T (-8) 1 m79; T 6 1 m80; T 14 1 m81; T 9 2 m248; T 21 2 m249; T (-2) 1 m250; T 7 2 m251; T 6 1 m252; T (-3) 2 m253; T (-21) 2 m254; T (-6) 1 m255; T (-9) 2 m256; T 8 1 m290; T (-14) 1 m291; T 6 1 m292; T (-12) 1 m413; T 21 1 m414; T (-9) 1 m415; T 18 1 m524; T 20 1 m525; T (-9) 1 m526; T (-21) 2 m527; T (-79) 2 m528; T (-9) 1 m529; T 3 2 m530; T 45 2 m531; T 18 1 m532; T (-3) 1 m533; T (-21) 2 m534; T 3 2 m535].
Definition p611 : pref := [T 15 8 m4; T (-5) 4 m5; T (-5) 8 m6; T 11 8 m82; T 2 1 m83; T 11 4 m84; T 2 1 m85; T (-33) 8 m86; T (-3) 1 m87; T (-3) 2 m88; T 1 2 m89; T (-2) 1 m90; T (-4) 1 m91; T 6 1 m92; T 5 4 m257; T 6 1 m258; T 5 2 m259; T (-15) 4 m260; T (-4) 1 m261; T (-2) 1 m262; T (-4) 1 m291; T 6 1 m292; T (-2) 1 m293; T 6 1 m414; T (-9) 1 m415; T 3 1 m416; T 9 2 m536; T (-27) 4 m537; T (-3) 1 m538; T 9 4 m539; T 9 2 m540; T (-3) 2 m541].
Definition p612 : pref := [T (-869) 288 m4; T (-181) 90 m5; T 3 4 m6; T 1 1 m23; T (-1) 2 m82; T 1 4 m83; T (-1) 8 m84; T 1 2 m85; T 27 32 m86; T (-3) 8 m88; T 1 2 m90; T (-1) 1 m91; T (-56) 9 m93; T 4 1 m94; T 1937 180 m95; T (-5) 1 m96; T (-16) 135 m97; T 16 135 m98; T (-1) 2 m257; T (-3) 8 m258; T (-1) 4 m259; T 15 16 m260; T (-1) 2 m261; T 1 2 m262; T (-1) 1 m291; T 1 2 m293; T (-1) 4 m294; T (-5) 18 m295; T (-32) 27 m296; T 38 27 m297; T 3 8 m298; T 3 2 m414; T (-3) 4 m416; T 14 1 m417; T (-161) 12 m418; T 5 6 m419; T 9 4 m536; T (-29) 48 m537; T (-3) 2 m538; T 9 8 m540; T (-13) 12 m542; T (-14) 3 m543; T 35 6 m544; T 14 3 m545; T (-35) 6 m546].
Definition p613 : pref := [T (-9) 4 m58; T (-37) 4 m59; T (-3) 1 m60; T 2 1 m61; T 4 1 m62; T (-7) 2 m63; T (-3) 1 m64; T (-5) 1 m65; T (-4) 1 m66; T 3 2 m67; T 21 4 m68; T 6 1 m69; T 5 1 m70; T 17 4 m71; T 4 1 m72; T (-2) 1 m74; T 6 1 m76; T (-8) 1 m77; T 14 1 m78; T 8 1 m79; T (-6) 1 m80; T (-14) 1 m81; T (-9) 2 m248; T (-21) 2 m249; T 2 1 m250; T (-7) 2 m251; T (-6) 1 m252; T 3 2 m253; T 21 2 m254; T 6 1 m255; T 9 2 m256; T (-8) 1 m290; T 14 1 m291; T (-6) 1 m292; T 12 1 m413; T (-15) 1 m414; T 3 1 m416; T (-15) 1 m524; T (-20) 1 m525; T 9 1 m526; T 6 1 m527; T 67 2 m528; T 9 1 m529; T (-27) 2 m531; T (-15) 1 m532; T 6 1 m534].
Definition p614 : pref := [T 45 16 m99; T 2429 180 m100; T (-5) 1 m101; T (-3) 2 m102; T 1 1 m103; T (-94) 9 m104; T 8 1 m105; T 2 1 m106; T (-3) 8 m107; T 4279 180 m108; T (-13) 1 m109; T 161 18 m110; T (-8) 1 m111; T (-2) 1 m112; T (-9) 32 m113; T (-5713) 360 m114; T 5 1 m115; T (-4009) 180 m116; T 13 1 m117; T 3 2 m118; T (-61) 32 m119; T 3 2 m120; T (-1) 4 m121; T (-32) 135 m122; T (-4) 1 m123; T 3 1 m124; T 4 1 m125; T (-32) 135 m126; T (-3) 1 m127; T 32 135 m128; T 32 135 m129; T 9 16 m263; T (-9) 4 m264; T 1 1 m265; T (-1) 2 m266; T (-3) 1 m267; T (-3) 16 m268; T 3 2 m269; T 3 1 m270; T (-4) 1 m299; T (-64) 27 m300; T 1 2 m301; T 3 1 m302; T 98 27 m303; T (-3) 8 m304; T (-37) 27 m305; T 22 1 m420; T 6 1 m421; T (-97) 4 m422; T (-9) 2 m423; T 107 24 m424; T 91 12 m547; T 31 6 m548; T (-28) 3 m549; T 91 6 m550; T 56 3 m551; T (-17) 3 m552; T (-155) 6 m553; T (-28) 3 m554; T 3 16 m555; T 23 6 m556; T 9 2 m557; T (-21) 16 m558; T (-9) 2 m559; T 3 4 m560].
Definition p615 : pref := [T 9 2 m130; T 6 1 m131; T (-21) 2 m132; T (-9) 2 m425; T 72 1 m426; T (-132) 1 m427; T 129 2 m428].
Definition p616 : pref := [T (-71) 9 m4; T 34 3 m5; T 3 2 m6; T (-8) 3 m20; T 5 1 m21; T 2 1 m23; T (-4) 1 m24; T (-89) 18 m95; T 2 1 m96; T (-1) 4 m294; T (-5) 27 m295; T (-8) 27 m297; T 1 4 m298; T 13 27 m306; T 7 2 m418; T (-7) 2 m419; T (-7) 3 m561].
Definition p617 : pref := [T (-307) 36 m4; T 431 36 m5; T 3 2 m6; T 4 3 m15; T (-8) 3 m20; T 5 1 m21; T 2 1 m23; T (-4) 1 m24; T (-89) 18 m95; T 2 1 m96; T (-1) 4 m294; T (-5) 27 m295; T (-8) 27 m297; T 1 4 m298; T 13 27 m306; T 7 2 m418; T (-29) 6 m419; T (-7) 3 m561].
Definition p618 : pref := [T (-95) 18 m4; T 341 36 m5; T 3 4 m6; T (-5) 6 m20; T 19 6 m21; T 1 1 m23; T (-3) 1 m24; T (-89) 18 m95; T 2 1 m96; T (-1) 8 m294; T (-5) 27 m295; T (-8) 27 m297; T 1 4 m298; T 13 27 m306; T 7 2 m418; T (-7) 2 m419; T (-7) 3 m561].
Definition p619 : pref := [T 1 2 m228; T (-3) 2 m229; T 1 2 m394; T (-3) 2 m395; T 1 1 m833; T 1 1 m856].
Definition p620 : pref := [T (-1) 2 m294; T 1 3 m295; T 4 9 m297; T 3 2 m298; T (-7) 9 m306; T (-1) 1 m391].
Definition p621 : pref := [T 1 2 m294; T (-1) 3 m295; T (-4) 9 m297; T (-3) 2 m298; T 7 9 m306; T 1 1 m391].
Definition p622 : pref := [T 1 2 m294; T 1 3 m295; T 4 9 m297; T (-3) 2 m298; T (-7) 9 m306; T 1 1 m391].
Definition p623 : pref := [T 25 6 m392; T (-13) 8 m393; T (-1) 9 m594; T 1 9 m595; T (-4) 3 m601].
Definition p624 : pref := [T (-5) 4 m396; T 83 12 m397; T 2 9 m597; T 2 9 m598; T (-4) 9 m599; T 8 3 m603; T (-11) 1 m857].
Definition p625 : pref := [T 3 4 m4; T (-1) 2 m5; T (-1) 4 m6; T 3 2 m20; T (-1) 1 m21; T (-1) 2 m22; T (-1) 1 m23; T 2 3 m24; T 1 3 m25].
Definition p626 : pref := [T (-7) 24 m32; T 9613 9720 m33; T (-8) 9 m34; T (-2) 3 m35; T (-682) 243 m36; T 16 9 m37; T (-7) 12 m38; T 2432 405 m39; T (-40) 9 m40; T (-2) 3 m41; T 7 8 m42; T (-6581) 1620 m43; T 32 9 m44; T 1 1 m45; T (-1) 8 m46; T 1 2 m47; T (-1) 6 m48; T 2 3 m49; T 32 405 m50; T 4 3 m51; T 32 405 m52; T (-2) 1 m53; T (-64) 405 m54; T (-1) 4 m239; T (-3) 2 m240; T (-1) 2 m241; T 3 4 m242; T 1 1 m243; T 1 2 m244; T (-1) 6 m280; T 2 3 m281; T (-10) 27 m282; T 64 81 m283; T (-1) 3 m284; T 4 3 m285; T (-152) 81 m286; T 1 2 m287; T (-2) 1 m288; T 118 81 m289; T 1 3 m406; T (-1) 1 m407; T (-28) 3 m408; T 154 9 m409; T (-2) 1 m410; T (-73) 9 m411; T 3 1 m412; T 133 81 m512; T 269 54 m513; T (-268) 81 m514; T 220 27 m515; T 268 81 m516; T (-175) 27 m517; T (-220) 27 m518; T 197 324 m519; T 1 1 m520; T (-3) 4 m521; T (-3) 2 m522; T 1 2 m523].
Definition p627 : pref := [T 1 2 m55; T 1 1 m56; T (-3) 2 m57; T 1 2 m245; T 1 1 m246; T (-3) 2 m247].
Definition p628 : pref := [T (-3) 2 m58; T (-15) 2 m59; T (-4) 1 m60; T 4 3 m61; T 8 3 m62; T (-7) 3 m63; T (-2) 1 m64; T (-14) 3 m65; T (-8) 3 m66; T 1 1 m67; T 7 2 m68; T 6 1 m69; T 14 3 m70; T 23 6 m71; T 4 1 m72; T (-1) 3 m73; T (-7) 3 m74; T 1 3 m75; T 4 1 m76; T (-16) 3 m77; T 28 3 m78; T 16 3 m79; T (-4) 1 m80; T (-28) 3 m81; T (-3) 1 m248; T (-7) 1 m249; T 4 3 m250; T (-7) 3 m251; T (-4) 1 m252; T 1 1 m253; T 7 1 m254; T 4 1 m255; T 3 1 m256; T (-16) 3 m290; T 28 3 m291; T (-4) 1 m292; T 8 1 m413; T (-14) 1 m414; T 6 1 m415; T (-12) 1 m524; T (-40) 3 m525; T 6 1 m526; T 7 1 m527; T 79 3 m528; T 6 1 m529; T (-1) 1 m530; T (-15) 1 m531; T (-12) 1 m532; T 2 1 m533; T 7 1 m534; T (-1) 1 m535].
Definition p629 : pref := [T (-5) 4 m4; T 5 6 m5; T 5 12 m6; T (-11) 12 m82; T (-4) 3 m83; T (-11) 6 m84; T (-4) 3 m85; T 11 4 m86; T 2 1 m87; T 1 1 m88; T (-1) 3 m89; T 4 3 m90; T 8 3 m91; T (-4) 1 m92; T (-5) 6 m257; T (-4) 1 m258; T (-5) 3 m259; T 5 2 m260; T 8 3 m261; T 4 3 m262; T 8 3 m291; T (-4) 1 m292; T 4 3 m293; T (-4) 1 m414; T 6 1 m415; T (-2) 1 m416; T (-3) 1 m536; T 9 2 m537; T 2 1 m538; T (-3) 2 m539; T (-3) 1 m540; T 1 1 m541].
Definition p630 : pref := [T (-5699) 3888 m4; T 181 135 m5; T 1 3 m6; T 4 9 m23; T 1 3 m82; T (-1) 6 m83; T 1 12 m84; T (-1) 3 m85; T (-9) 16 m86; T 1 4 m88; T (-1) 3 m90; T 2 3 m91; T (-682) 243 m93; T 16 9 m94; T 982 405 m95; T (-20) 9 m96; T 32 405 m97; T (-32) 405 m98; T 1 3 m257; T 1 4 m258; T 1 6 m259; T (-5) 8 m260; T 1 3 m261; T (-1) 3 m262; T 2 3 m291; T (-1) 3 m293; T 1 6 m294; T 5 27 m295; T 64 81 m296; T (-76) 81 m297; T (-1) 4 m298; T (-1) 1 m414; T 1 2 m416; T (-28) 3 m417; T 161 18 m418; T (-5) 9 m419; T (-3) 2 m536; T 1261 648 m537; T 1 1 m538; T (-3) 4 m540; T (-133) 162 m542; T (-268) 81 m543; T 110 27 m544; T 268 81 m545; T (-110) 27 m546].
Definition p631 : pref := [T 3 2 m58; T 37 6 m59; T 2 1 m60; T (-4) 3 m61; T (-8) 3 m62; T 7 3 m63; T 2 1 m64; T 10 3 m65; T 8 3 m66; T (-1) 1 m67; T (-7) 2 m68; T (-4) 1 m69; T (-10) 3 m70; T (-17) 6 m71; T (-8) 3 m72; T 4 3 m74; T (-4) 1 m76; T 16 3 m77; T (-28) 3 m78; T (-16) 3 m79; T 4 1 m80; T 28 3 m81; T 3 1 m248; T 7 1 m249; T (-4) 3 m250; T 7 3 m251; T 4 1 m252; T (-1) 1 m253; T (-7) 1 m254; T (-4) 1 m255; T (-3) 1 m256; T 16 3 m290; T (-28) 3 m291; T 4 1 m292; T (-8) 1 m413; T 10 1 m414; T (-2) 1 m416; T 10 1 m524; T 40 3 m525; T (-6) 1 m526; T (-4) 1 m527; T (-67) 3 m528; T (-6) 1 m529; T 9 1 m531; T 10 1 m532; T (-4) 1 m534].
Definition p632 : pref := [T 5 8 m99; T 15989 2430 m100; T (-20) 9 m101; T 1 1 m102; T (-2) 3 m103; T (-1688) 243 m104; T 32 9 m105; T (-4) 3 m106; T 1 4 m107; T 13532 1215 m108; T (-52) 9 m109; T 1931 243 m110; T (-32) 9 m111; T 4 3 m112; T 3 16 m113; T (-24283) 4860 m114; T 20 9 m115; T (-14747) 1215 m116; T 52 9 m117; T (-1) 1 m118; T (-59) 48 m119; T (-1) 1 m120; T 1 6 m121; T 64 405 m122; T 8 3 m123; T (-2) 1 m124; T (-8) 3 m125; T 64 405 m126; T 2 1 m127; T (-64) 405 m128; T (-64) 405 m129; T (-3) 8 m263; T 3 2 m264; T (-2) 3 m265; T 1 3 m266; T 2 1 m267; T 1 8 m268; T (-1) 1 m269; T (-2) 1 m270; T 8 3 m299; T 128 81 m300; T (-1) 3 m301; T (-2) 1 m302; T (-196) 81 m303; T 1 4 m304; T 74 81 m305; T (-44) 3 m420; T (-4) 1 m421; T 97 6 m422; T 3 1 m423; T (-107) 36 m424; T 1721 162 m547; T 1396 81 m548; T (-536) 81 m549; T 856 81 m550; T 1072 81 m551; T (-329) 81 m552; T (-1955) 81 m553; T (-536) 81 m554; T (-1) 8 m555; T (-842) 81 m556; T (-3) 1 m557; T 7 8 m558; T 3 1 m559; T (-1) 2 m560].
Definition p633 : pref := [T (-3) 1 m130; T (-4) 1 m131; T 7 1 m132; T 3 1 m425; T (-48) 1 m426; T 88 1 m427; T (-43) 1 m428].
Definition p634 : pref := [T (-83) 27 m4; T 37 9 m5; T 2 3 m6; T (-14) 9 m20; T 10 3 m21; T 8 9 m23; T (-16) 9 m24; T (-46) 27 m95; T 8 9 m96; T 1 6 m294; T 10 81 m295; T 16 81 m297; T (-1) 6 m298; T (-26) 81 m306; T (-7) 3 m418; T 7 3 m419; T (-16) 9 m561].
Definition p635 : pref := [T (-143) 54 m4; T 199 54 m5; T 2 3 m6; T (-8) 9 m15; T (-14) 9 m20; T 10 3 m21; T 8 9 m23; T (-16) 9 m24; T (-46) 27 m95; T 8 9 m96; T 1 6 m294; T 10 81 m295; T 16 81 m297; T (-1) 6 m298; T (-26) 81 m306; T (-7) 3 m418; T 29 9 m419; T (-16) 9 m561].
Definition p636 : pref := [T 215 81 m4; T (-833) 162 m5; T (-1) 2 m6; T 35 27 m20; T (-97) 27 m21; T (-2) 3 m23; T 2 1 m24; T 242 81 m95; T (-4) 3 m96; T (-1) 8 m294; T (-5) 27 m295; T (-8) 27 m297; T 1 4 m298; T 13 27 m306; T 7 2 m418; T (-7) 2 m419; T 62 27 m561].
Definition p637 : pref := [T (-1) 9 m4; T 1 9 m5; T (-1) 8 m161; T 1 4 m164; T 1 8 m310; T 1 9 m315; T (-1) 4 m316; T (-1) 9 m317].
Definition p638 : pref := [T (-1) 3 m228; T 1 1 m229; T (-1) 3 m394; T 1 1 m395; T (-1) 3 m596; T (-1) 3 m602].
Definition p639 : pref := [T 1 3 m294; T (-2) 9 m295; T (-8) 27 m297; T (-1) 1 m298; T 14 27 m306; T 2 3 m391].
Definition p640 : pref := [T (-1) 3 m294; T 2 9 m295; T 8 27 m297; T 1 1 m298; T (-14) 27 m306; T (-2) 3 m391].
Definition p641 : pref := [T (-1) 3 m294; T (-2) 9 m295; T (-8) 27 m297; T 1 1 m298; T 14 27 m306; T (-2) 3 m391].
Definition p642 : pref := [T (-25) 9 m392; T 13 12 m393; T 2 27 m594; T (-2) 27 m595; T 8 9 m601].
Definition p643 : pref := [T 5 6 m396; T (-83) 18 m397; T (-4) 27 m597; T (-4) 27 m598; T 8 27 m599; T (-16) 9 m603; T 11 3 m604].
Definition p644 : pref := [T (-1) 8 m4; T 1 8 m6; T (-1) 4 m20; T 1 4 m22; T 1 6 m23; T (-1) 6 m25].
Definition p645 : pref := [T 7 48 m32; T 91 144 m33; T 1 6 m35; T (-1) 9 m39; T (-7) 48 m42; T (-1) 3 m43; T (-1) 6 m45; T (-3) 16 m46; T (-1) 12 m47; T 1 12 m48; T (-1) 3 m49; T 1 3 m53; T 1 8 m239; T 1 4 m240; T (-1) 8 m242; T (-1) 4 m244; T 1 12 m280; T (-1) 3 m281; T 5 81 m282; T 8 81 m286; T (-1) 12 m287; T 1 3 m288; T (-13) 81 m289; T (-1) 3 m406; T 1 2 m407; T (-7) 6 m409; T 3 2 m411; T (-1) 2 m412; T (-3) 8 m519; T 3 8 m521; T 1 4 m522; T (-1) 4 m523].
Definition p646 : pref := [T (-1) 4 m55; T 1 4 m57; T (-1) 4 m245; T 1 4 m247].
Definition p647 : pref := [T 1 4 m58; T 7 12 m59; T 1 3 m60; T 1 6 m63; T 1 3 m65; T (-1) 6 m67; T (-1) 4 m68; T (-1) 3 m69; T (-1) 3 m70; T (-3) 4 m71; T (-1) 3 m72; T 1 6 m73; T 1 2 m74; T (-1) 6 m75; T (-2) 3 m76; T (-2) 3 m78; T 2 3 m80; T 2 3 m81; T 1 2 m248; T 1 2 m249; T 1 6 m251; T (-1) 6 m253; T (-1) 2 m254; T (-1) 2 m256; T (-2) 3 m291; T 2 3 m292; T 1 1 m414; T (-1) 1 m415; T 1 1 m524; T (-3) 2 m527; T (-13) 6 m528; T 1 2 m530; T 19 6 m531; T 1 1 m532; T (-1) 1 m533; T (-3) 2 m534; T 1 2 m535].
Definition p648 : pref := [T 5 24 m4; T (-5) 24 m6; T 11 24 m82; T 1 3 m83; T (-11) 24 m86; T (-1) 3 m87; T (-1) 6 m88; T 1 6 m89; T (-2) 3 m90; T 2 3 m92; T 5 12 m257; T 2 3 m258; T (-5) 12 m260; T (-2) 3 m262; T 2 3 m292; T (-2) 3 m293; T (-1) 1 m415; T 1 1 m416; T (-3) 4 m537; T 3 4 m539; T 1 2 m540; T (-1) 2 m541].
Definition p649 : pref := [T (-1) 32 m4; T (-13) 72 m5; T 1 12 m6; T (-1) 6 m82; T (-1) 12 m83; T 3 32 m86; T (-1) 24 m88; T 1 6 m90; T (-1) 18 m95; T (-1) 6 m257; T (-1) 24 m258; T 5 48 m260; T 1 6 m262; T 1 6 m293; T (-1) 12 m294; T (-5) 162 m295; T 4 81 m297; T 1 24 m298; T (-1) 4 m416; T (-7) 12 m418; T 1 6 m419; T (-3) 16 m537; T 1 8 m540].
Definition p650 : pref := [T (-1) 4 m58; T (-1) 4 m59; T (-1) 6 m63; T (-1) 3 m65; T 1 6 m67; T 1 4 m68; T 1 3 m70; T 7 12 m71; T (-1) 3 m74; T 2 3 m76; T 2 3 m78; T (-2) 3 m80; T (-2) 3 m81; T (-1) 2 m248; T (-1) 2 m249; T (-1) 6 m251; T 1 6 m253; T 1 2 m254; T 1 2 m256; T 2 3 m291; T (-2) 3 m292; T (-1) 1 m414; T 1 1 m416; T (-1) 1 m524; T 1 1 m527; T 13 6 m528; T (-13) 6 m531; T (-1) 1 m532; T 1 1 m534].
Definition p651 : pref := [T 7 48 m99; T (-5) 72 m100; T (-1) 12 m107; T (-1) 3 m108; T (-1) 6 m110; T (-1) 32 m113; T (-7) 72 m114; T 1 3 m116; T 1 6 m118; T 1 96 m119; T 1 6 m120; T (-1) 12 m121; T 1 3 m124; T (-1) 3 m127; T 1 16 m263; T (-1) 4 m264; T (-1) 12 m266; T (-1) 48 m268; T 1 4 m269; T 1 3 m302; T 4 27 m303; T (-1) 24 m304; T (-1) 9 m305; T (-5) 4 m422; T (-1) 2 m423; T 5 8 m424; T (-1) 2 m547; T 3 16 m555; T 13 12 m556; T (-23) 48 m558; T (-1) 2 m559; T 1 4 m560].
Definition p652 : pref := [T (-1) 3 m4; T 1 18 m5; T 1 6 m6; T 1 9 m95; T (-1) 12 m294; T (-5) 81 m295; T (-8) 81 m297; T 1 12 m298; T 13 81 m306; T 7 6 m418; T (-7) 6 m419].
Definition p653 : pref := [T 29 36 m4; T (-19) 36 m5; T (-1) 6 m6; T (-2) 3 m15; T (-1) 9 m95; T 1 12 m294; T 5 81 m295; T 8 81 m297; T (-1) 12 m298; T (-13) 81 m306; T (-7) 6 m418; T 11 6 m419].
Definition p654 : pref := [T (-1) 4 m4; T 1 4 m6; T (-1) 8 m294].
Definition p655 : pref := [T 1 6 m228; T (-1) 6 m229; T 1 6 m394; T (-1) 6 m395].
Definition p656 : pref := [T (-1) 6 m294; T 1 27 m295; T 1 6 m298; T (-1) 27 m306].
Definition p657 : pref := [T 1 6 m294; T (-1) 27 m295; T (-1) 6 m298; T 1 27 m306].
Definition p658 : pref := [T 1 6 m294; T 1 27 m295; T (-1) 6 m298; T (-1) 27 m306].
Definition p659 : pref := [T 3 2 m4; T (-5) 8 m5; T (-1) 2 m6; T 1 12 m23; T (-1) 12 m24; T 1 8 m294; T 1 16 m629; T 3 8 m922; T (-2) 1 m925; T 7 1 m926; T (-11) 1 m927; T 3 1 m928].
Definition p660 : pref := [T (-3) 8 m4; T 3 8 m6; T (-3) 4 m20; T 3 4 m22; T 1 2 m23; T (-1) 2 m25].
Definition p661 : pref := [T 7 16 m32; T 139 48 m33; T 1 2 m35; T (-1) 3 m39; T (-7) 16 m42; T (-3) 2 m43; T (-1) 2 m45; T (-17) 16 m46; T (-1) 4 m47; T 1 4 m48; T (-1) 1 m49; T 1 1 m53; T 3 8 m239; T 3 4 m240; T (-3) 8 m242; T (-3) 4 m244; T 1 4 m280; T (-1) 1 m281; T 5 27 m282; T 8 27 m286; T (-1) 4 m287; T 1 1 m288; T (-13) 27 m289; T (-1) 1 m406; T 3 2 m407; T (-7) 2 m409; T 9 2 m411; T (-3) 2 m412; T (-9) 8 m519; T 9 8 m521; T 3 4 m522; T (-3) 4 m523].
Definition p662 : pref := [T (-3) 4 m55; T 3 4 m57; T (-3) 4 m245; T 3 4 m247].
Definition p663 : pref := [T 3 4 m58; T 7 4 m59; T 1 1 m60; T 1 2 m63; T 1 1 m65; T (-1) 2 m67; T (-3) 4 m68; T (-1) 1 m69; T (-1) 1 m70; T (-9) 4 m71; T (-1) 1 m72; T 1 2 m73; T 3 2 m74; T (-1) 2 m75; T (-2) 1 m76; T (-2) 1 m78; T 2 1 m80; T 2 1 m81; T 3 2 m248; T 3 2 m249; T 1 2 m251; T (-1) 2 m253; T (-3) 2 m254; T (-3) 2 m256; T (-2) 1 m291; T 2 1 m292; T 3 1 m414; T (-3) 1 m415; T 3 1 m524; T (-9) 2 m527; T (-13) 2 m528; T 3 2 m530; T 19 2 m531; T 3 1 m532; T (-3) 1 m533; T (-9) 2 m534; T 3 2 m535].
Definition p664 : pref := [T 5 8 m4; T (-5) 8 m6; T 11 8 m82; T 1 1 m83; T (-11) 8 m86; T (-1) 1 m87; T (-1) 2 m88; T 1 2 m89; T (-2) 1 m90; T 2 1 m92; T 5 4 m257; T 2 1 m258; T (-5) 4 m260; T (-2) 1 m262; T 2 1 m292; T (-2) 1 m293; T (-3) 1 m415; T 3 1 m416; T (-9) 4 m537; T 9 4 m539; T 3 2 m540; T (-3) 2 m541].
Definition p665 : pref := [T (-19) 32 m4; T (-13) 24 m5; T 3 4 m6; T (-1) 2 m82; T (-1) 4 m83; T 9 32 m86; T (-1) 8 m88; T 1 2 m90; T (-1) 6 m95; T (-1) 2 m257; T (-1) 8 m258; T 5 16 m260; T 1 2 m262; T 1 2 m293; T (-1) 4 m294; T (-5) 54 m295; T 4 27 m297; T 1 8 m298; T (-3) 4 m416; T (-7) 4 m418; T 1 2 m419; T (-9) 16 m537; T 3 8 m540].
Definition p666 : pref := [T (-3) 4 m58; T (-3) 4 m59; T (-1) 2 m63; T (-1) 1 m65; T 1 2 m67; T 3 4 m68; T 1 1 m70; T 7 4 m71; T (-1) 1 m74; T 2 1 m76; T 2 1 m78; T (-2) 1 m80; T (-2) 1 m81; T (-3) 2 m248; T (-3) 2 m249; T (-1) 2 m251; T 1 2 m253; T 3 2 m254; T 3 2 m256; T 2 1 m291; T (-2) 1 m292; T (-3) 1 m414; T 3 1 m416; T (-3) 1 m524; T 3 1 m527; T 13 2 m528; T (-13) 2 m531; T (-3) 1 m532; T 3 1 m534].
Definition p667 : pref := [T 15 16 m99; T 7 24 m100; T (-1) 4 m107; T (-1) 1 m108; T (-1) 2 m110; T (-3) 32 m113; T (-19) 24 m114; T 1 1 m116; T 1 2 m118; T (-15) 32 m119; T 1 2 m120; T (-1) 4 m121; T 1 1 m124; T (-1) 1 m127; T 3 16 m263; T (-3) 4 m264; T (-1) 4 m266; T (-1) 16 m268; T 3 4 m269; T 1 1 m302; T 4 9 m303; T (-1) 8 m304; T (-1) 3 m305; T (-15) 4 m422; T (-3) 2 m423; T 15 8 m424; T (-3) 2 m547; T 9 16 m555; T 13 4 m556; T (-23) 16 m558; T (-3) 2 m559; T 3 4 m560].
Definition p668 : pref := [T (-3) 1 m4; T 7 6 m5; T 3 2 m6; T 1 3 m95; T (-1) 4 m294; T (-5) 27 m295; T (-8) 27 m297; T 1 4 m298; T 13 27 m306; T 7 2 m418; T (-7) 2 m419].
Definition p669 : pref := [T 53 12 m4; T (-31) 12 m5; T (-3) 2 m6; T (-2) 1 m15; T (-1) 3 m95; T 1 4 m294; T 5 27 m295; T 8 27 m297; T (-1) 4 m298; T (-13) 27 m306; T (-7) 2 m418; T 11 2 m419].
Definition p670 : pref := [T (-3) 4 m4; T 3 4 m6; T (-1) 8 m294].
Definition p671 : pref := [T 1 2 m228; T (-1) 2 m229; T 1 2 m394; T (-1) 2 m395].
Definition p672 : pref := [T (-1) 2 m294; T 1 9 m295; T 1 2 m298; T (-1) 9 m306].
Definition p673 : pref := [T 1 2 m294; T (-1) 9 m295; T (-1) 2 m298; T 1 9 m306].
Definition p674 : pref := [T 1 2 m294; T 1 9 m295; T (-1) 2 m298; T (-1) 9 m306].
Definition p675 : pref := [T 1 4 m4; T (-1) 4 m6; T 1 2 m20; T (-1) 2 m22; T (-1) 3 m23; T 1 3 m25].
Definition p676 : pref := [T (-7) 24 m32; T (-19) 72 m33; T (-1) 3 m35; T 2 9 m39; T 7 24 m42; T 1 6 m43; T 1 3 m45; T (-1) 8 m46; T 1 6 m47; T (-1) 6 m48; T 2 3 m49; T (-2) 3 m53; T (-1) 4 m239; T (-1) 2 m240; T 1 4 m242; T 1 2 m244; T (-1) 6 m280; T 2 3 m281; T (-10) 81 m282; T (-16) 81 m286; T 1 6 m287; T (-2) 3 m288; T 26 81 m289; T 2 3 m406; T (-1) 1 m407; T 7 3 m409; T (-3) 1 m411; T 1 1 m412; T 3 4 m519; T (-3) 4 m521; T (-1) 2 m522; T 1 2 m523].
Definition p677 : pref := [T 1 2 m55; T (-1) 2 m57; T 1 2 m245; T (-1) 2 m247].
Definition p678 : pref := [T (-1) 2 m58; T (-7) 6 m59; T (-2) 3 m60; T (-1) 3 m63; T (-2) 3 m65; T 1 3 m67; T 1 2 m68; T 2 3 m69; T 2 3 m70; T 3 2 m71; T 2 3 m72; T (-1) 3 m73; T (-1) 1 m74; T 1 3 m75; T 4 3 m76; T 4 3 m78; T (-4) 3 m80; T (-4) 3 m81; T (-1) 1 m248; T (-1) 1 m249; T (-1) 3 m251; T 1 3 m253; T 1 1 m254; T 1 1 m256; T 4 3 m291; T (-4) 3 m292; T (-2) 1 m414; T 2 1 m415; T (-2) 1 m524; T 3 1 m527; T 13 3 m528; T (-1) 1 m530; T (-19) 3 m531; T (-2) 1 m532; T 2 1 m533; T 3 1 m534; T (-1) 1 m535].
Definition p679 : pref := [T (-5) 12 m4; T 5 12 m6; T (-11) 12 m82; T (-2) 3 m83; T 11 12 m86; T 2 3 m87; T 1 3 m88; T (-1) 3 m89; T 4 3 m90; T (-4) 3 m92; T (-5) 6 m257; T (-4) 3 m258; T 5 6 m260; T 4 3 m262; T (-4) 3 m292; T 4 3 m293; T 2 1 m415; T (-2) 1 m416; T 3 2 m537; T (-3) 2 m539; T (-1) 1 m540; T 1 1 m541].
Definition p680 : pref := [T (-7) 16 m4; T 13 36 m5; T 1 3 m6; T 1 3 m82; T 1 6 m83; T (-3) 16 m86; T 1 12 m88; T (-1) 3 m90; T 1 9 m95; T 1 3 m257; T 1 12 m258; T (-5) 24 m260; T (-1) 3 m262; T (-1) 3 m293; T 1 6 m294; T 5 81 m295; T (-8) 81 m297; T (-1) 12 m298; T 1 2 m416; T 7 6 m418; T (-1) 3 m419; T 3 8 m916; T (-1) 4 m917].
Definition p681 : pref := [T 1 2 m58; T 1 2 m59; T 1 3 m63; T 2 3 m65; T (-1) 3 m67; T (-1) 2 m68; T (-2) 3 m70; T (-7) 6 m71; T 2 3 m74; T (-4) 3 m76; T (-4) 3 m78; T 4 3 m80; T 4 3 m81; T 1 1 m248; T 1 1 m249; T 1 3 m251; T (-1) 3 m253; T (-1) 1 m254; T (-1) 1 m256; T (-4) 3 m291; T 4 3 m292; T 2 1 m414; T (-2) 1 m416; T 2 1 m524; T (-2) 1 m527; T (-13) 3 m528; T 13 3 m531; T 2 1 m532; T (-2) 1 m534].
Definition p682 : pref := [T 5 24 m99; T 23 36 m100; T 1 6 m107; T 2 3 m108; T 1 3 m110; T 1 16 m113; T (-11) 36 m114; T (-2) 3 m116; T (-1) 3 m118; T (-25) 48 m119; T (-1) 3 m120; T 1 6 m121; T (-2) 3 m124; T 2 3 m127; T (-1) 8 m263; T 1 2 m264; T 1 6 m266; T 1 24 m268; T (-1) 2 m269; T (-2) 3 m302; T (-8) 27 m303; T 1 12 m304; T 2 9 m305; T 5 2 m422; T 1 1 m423; T (-5) 4 m424; T 1 1 m547; T (-3) 8 m555; T (-13) 6 m556; T 23 24 m558; T 1 1 m559; T (-1) 2 m560].
Definition p683 : pref := [T (-4) 3 m4; T 8 9 m5; T 2 3 m6; T (-2) 9 m95; T 1 6 m294; T 10 81 m295; T 16 81 m297; T (-1) 6 m298; T (-26) 81 m306; T (-7) 3 m418; T 7 3 m419].
Definition p684 : pref := [T 7 18 m4; T 1 18 m5; T (-2) 3 m6; T 4 3 m15; T 2 9 m95; T (-1) 6 m294; T (-10) 81 m295; T (-16) 81 m297; T 1 6 m298; T 26 81 m306; T 7 3 m418; T (-11) 3 m419].
Definition p685 : pref := [T 1 2 m4; T (-1) 2 m6; T (-1) 8 m294].
Definition p686 : pref := [T (-1) 8 m161; T 1 8 m310].
Definition p687 : pref := [T (-1) 3 m228; T 1 3 m229; T (-1) 3 m394; T 1 3 m395].
Definition p688 : pref := [T 1 3 m294; T (-2) 27 m295; T (-1) 3 m298; T 2 27 m306].
Definition p689 : pref := [T (-1) 3 m294; T 2 27 m295; T 1 3 m298; T (-2) 27 m306].
Definition p690 : pref := [T (-1) 3 m294; T (-2) 27 m295; T 1 3 m298; T 2 27 m306].
Definition p691 : pref := [T 5 8 m4; T (-1) 2 m5; T (-1) 8 m6; T 5 4 m20; T (-1) 1 m21; T (-1) 4 m22; T (-5) 6 m23; T 2 3 m24; T 1 6 m25].
Definition p692 : pref := [T (-7) 48 m32; T (-4249) 19440 m33; T (-4) 9 m34; T (-1) 2 m35; T (-682) 243 m36; T 16 9 m37; T (-7) 12 m38; T 1912 405 m39; T (-4) 1 m40; T (-2) 3 m41; T 35 48 m42; T (-103) 60 m43; T 8 3 m44; T 5 6 m45; T 1 48 m46; T 5 12 m47; T (-1) 12 m48; T 1 3 m49; T 32 405 m50; T 4 3 m51; T 32 405 m52; T (-5) 3 m53; T (-64) 405 m54; T (-1) 8 m239; T (-5) 4 m240; T (-1) 2 m241; T 5 8 m242; T 1 1 m243; T 1 4 m244; T (-1) 12 m280; T 1 3 m281; T (-25) 81 m282; T 64 81 m283; T (-1) 3 m284; T 4 3 m285; T (-16) 9 m286; T 5 12 m287; T (-5) 3 m288; T 35 27 m289; T (-1) 2 m407; T (-28) 3 m408; T 287 18 m409; T (-2) 1 m410; T (-119) 18 m411; T 5 2 m412; T 91 81 m512; T 71 18 m513; T (-268) 81 m514; T 206 27 m515; T 268 81 m516; T (-49) 9 m517; T (-206) 27 m518; T 487 648 m519; T 1 1 m520; T (-3) 8 m521; T (-5) 4 m522; T 1 4 m523].
Definition p693 : pref := [T 1 4 m55; T 1 1 m56; T (-5) 4 m57; T 1 4 m245; T 1 1 m246; T (-5) 4 m247].
Definition p694 : pref := [T (-5) 4 m58; T (-83) 12 m59; T (-11) 3 m60; T 4 3 m61; T 8 3 m62; T (-13) 6 m63; T (-2) 1 m64; T (-13) 3 m65; T (-8) 3 m66; T 5 6 m67; T 13 4 m68; T 17 3 m69; T 13 3 m70; T 37 12 m71; T 11 3 m72; T (-1) 6 m73; T (-11) 6 m74; T 1 6 m75; T 10 3 m76; T (-16) 3 m77; T 26 3 m78; T 16 3 m79; T (-10) 3 m80; T (-26) 3 m81; T (-5) 2 m248; T (-13) 2 m249; T 4 3 m250; T (-13) 6 m251; T (-4) 1 m252; T 5 6 m253; T 13 2 m254; T 4 1 m255; T 5 2 m256; T (-16) 3 m290; T 26 3 m291; T (-10) 3 m292; T 8 1 m413; T (-13) 1 m414; T 5 1 m415; T (-11) 1 m524; T (-40) 3 m525; T 6 1 m526; T 11 2 m527; T 145 6 m528; T 6 1 m529; T (-1) 2 m530; T (-71) 6 m531; T (-11) 1 m532; T 1 1 m533; T 11 2 m534; T (-1) 2 m535].
Definition p695 : pref := [T (-25) 24 m4; T 5 6 m5; T 5 24 m6; T (-11) 24 m82; T (-1) 1 m83; T (-11) 6 m84; T (-4) 3 m85; T 55 24 m86; T 5 3 m87; T 5 6 m88; T (-1) 6 m89; T 2 3 m90; T 8 3 m91; T (-10) 3 m92; T (-5) 12 m257; T (-10) 3 m258; T (-5) 3 m259; T 25 12 m260; T 8 3 m261; T 2 3 m262; T 8 3 m291; T (-10) 3 m292; T 2 3 m293; T (-4) 1 m414; T 5 1 m415; T (-1) 1 m416; T (-3) 1 m536; T 15 4 m537; T 2 1 m538; T (-3) 4 m539; T (-5) 2 m540; T 1 2 m541].
Definition p696 : pref := [T (-4489) 7776 m4; T 1253 1080 m5; T 1 12 m6; T 2 9 m23; T 1 6 m82; T (-1) 4 m83; T 1 12 m84; T (-1) 3 m85; T (-15) 32 m86; T 5 24 m88; T (-1) 6 m90; T 2 3 m91; T (-682) 243 m93; T 16 9 m94; T 722 405 m95; T (-2) 1 m96; T 32 405 m97; T (-32) 405 m98; T 1 6 m257; T 5 24 m258; T 1 6 m259; T (-25) 48 m260; T 1 3 m261; T (-1) 6 m262; T 2 3 m291; T (-1) 6 m293; T 1 12 m294; T 25 162 m295; T 64 81 m296; T (-8) 9 m297; T (-5) 24 m298; T (-1) 1 m414; T 1 4 m416; T (-28) 3 m417; T 301 36 m418; T (-7) 18 m419; T (-3) 2 m536; T 1943 1296 m537; T 1 1 m538; T (-5) 8 m540; T (-91) 162 m542; T (-268) 81 m543; T 103 27 m544; T 268 81 m545; T (-103) 27 m546].
Definition p697 : pref := [T 5 4 m58; T 71 12 m59; T 2 1 m60; T (-4) 3 m61; T (-8) 3 m62; T 13 6 m63; T 2 1 m64; T 3 1 m65; T 8 3 m66; T (-5) 6 m67; T (-13) 4 m68; T (-4) 1 m69; T (-3) 1 m70; T (-9) 4 m71; T (-8) 3 m72; T 1 1 m74; T (-10) 3 m76; T 16 3 m77; T (-26) 3 m78; T (-16) 3 m79; T 10 3 m80; T 26 3 m81; T 5 2 m248; T 13 2 m249; T (-4) 3 m250; T 13 6 m251; T 4 1 m252; T (-5) 6 m253; T (-13) 2 m254; T (-4) 1 m255; T (-5) 2 m256; T 16 3 m290; T (-26) 3 m291; T 10 3 m292; T (-8) 1 m413; T 9 1 m414; T (-1) 1 m416; T 9 1 m524; T 40 3 m525; T (-6) 1 m526; T (-3) 1 m527; T (-121) 6 m528; T (-6) 1 m529; T 41 6 m531; T 9 1 m532; T (-3) 1 m534].
Definition p698 : pref := [T 5 48 m99; T 39701 9720 m100; T (-14) 9 m101; T 1 1 m102; T (-2) 3 m103; T (-1688) 243 m104; T 32 9 m105; T (-4) 3 m106; T 1 6 m107; T 21979 2430 m108; T (-46) 9 m109; T 3781 486 m110; T (-32) 9 m111; T 4 3 m112; T 5 32 m113; T (-25931) 9720 m114; T 14 9 m115; T (-24409) 2430 m116; T 46 9 m117; T (-5) 6 m118; T (-53) 96 m119; T (-5) 6 m120; T 1 12 m121; T 64 405 m122; T 8 3 m123; T (-5) 3 m124; T (-8) 3 m125; T 64 405 m126; T 5 3 m127; T (-64) 405 m128; T (-64) 405 m129; T (-5) 16 m263; T 5 4 m264; T (-2) 3 m265; T 1 4 m266; T 2 1 m267; T 5 48 m268; T (-3) 4 m269; T (-2) 1 m270; T 8 3 m299; T 128 81 m300; T (-1) 3 m301; T (-5) 3 m302; T (-184) 81 m303; T 5 24 m304; T 65 81 m305; T (-44) 3 m420; T (-4) 1 m421; T 179 12 m422; T 5 2 m423; T (-169) 72 m424; T 694 81 m547; T 1333 81 m548; T (-536) 81 m549; T 793 81 m550; T 1072 81 m551; T (-266) 81 m552; T (-1829) 81 m553; T (-536) 81 m554; T 1 16 m555; T (-2765) 324 m556; T (-3) 1 m557; T 19 48 m558; T 5 2 m559; T (-1) 4 m560].
Definition p699 : pref := [T (-5) 2 m130; T (-4) 1 m131; T 13 2 m132; T 5 2 m425; T (-48) 1 m426; T 82 1 m427; T (-73) 2 m428].
Definition p700 : pref := [T 317 81 m4; T (-1037) 162 m5; T (-1) 2 m6; T 56 27 m20; T (-118) 27 m21; T (-4) 3 m23; T 8 3 m24; T 242 81 m95; T (-4) 3 m96; T (-1) 4 m294; T (-5) 27 m295; T (-8) 27 m297; T 1 4 m298; T 13 27 m306; T 7 2 m418; T (-7) 2 m419; T 62 27 m561].
Definition p701 : pref := [T (-977) 324 m4; T 1783 324 m5; T 1 2 m6; T (-14) 9 m15; T (-56) 27 m20; T 118 27 m21; T 4 3 m23; T (-8) 3 m24; T (-242) 81 m95; T 4 3 m96; T 1 4 m294; T 5 27 m295; T 8 27 m297; T (-1) 4 m298; T (-13) 27 m306; T (-7) 2 m418; T 91 18 m419; T (-62) 27 m561].
Definition p702 : pref := [T (-43) 108 m4; T 109 54 m5; T 1 12 m6; T (-7) 9 m20; T 23 9 m21; T 2 9 m23; T (-10) 9 m24; T (-46) 27 m95; T 8 9 m96; T 1 24 m294; T 10 81 m295; T 16 81 m297; T (-1) 6 m298; T (-26) 81 m306; T (-7) 3 m418; T 7 3 m419; T (-16) 9 m561].
Definition p703 : pref := [T (-1) 9 m4; T 1 9 m5; T 1 4 m161; T (-1) 4 m164; T (-1) 4 m310; T 1 9 m315; T 1 4 m316; T (-1) 9 m317].
Definition p704 : pref := [T (-1) 6 m228; T 5 6 m229; T (-1) 6 m394; T 5 6 m395; T (-1) 3 m596; T (-1) 3 m602].
Definition p705 : pref := [T 1 6 m294; T (-5) 27 m295; T (-8) 27 m297; T (-5) 6 m298; T 13 27 m306; T 2 3 m391].
Definition p706 : pref := [T (-1) 6 m294; T 5 27 m295; T 8 27 m297; T 5 6 m298; T (-13) 27 m306; T (-2) 3 m391].
Definition p707 : pref := [T (-1) 6 m294; T (-5) 27 m295; T (-8) 27 m297; T 5 6 m298; T 13 27 m306; T (-2) 3 m391].
Definition p708 : pref := [T (-23) 9 m392; T 65 72 m393; T 2 27 m594; T (-2) 27 m595; T 8 9 m601].
Definition p709 : pref := [T 25 36 m396; T (-145) 36 m397; T (-4) 27 m597; T (-4) 27 m598; T 8 27 m599; T (-16) 9 m603; T 31 9 m604].
Definition p710 : pref := [T (-5) 24 m26; T 2 3 m28; T 5 48 m30; T 1 4 m405; T (-7) 18 m509; T 4 9 m510; T 5 72 m511].
Definition p711 : pref := [T (-5) 48 m4; T 1 3 m5; T 5 96 m6; T 1 8 m15; T (-7) 36 m20; T 2 9 m21; T 5 144 m22; T 5 48 m929; T (-1) 3 m930; T (-5) 96 m931; T (-1) 8 m935; T 7 36 m939; T (-2) 9 m940; T (-5) 144 m941].
Definition p712 : pref := [T (-47) 144 m4; T (-1) 18 m5; T (-13) 72 m6; T (-1) 8 m15; T (-25) 72 m20; T 13 36 m21; T (-11) 144 m22].
Definition p713 : pref := [T 3 64 m7; T 3 64 m8; T 1 32 m9; T (-3) 16 m10; T 1 4 m11; T 1 8 m16; T (-7) 32 m17].
Definition p714 : pref := [T 1 1 m932; T (-1) 1 m936].
Definition p715 : pref := [T 1 8 m933; T (-1) 8 m934; T (-1) 8 m937; T 1 8 m938].
Definition p716 : pref := [T (-43) 144 m4; T 49 72 m5; T 13 72 m6; T 1 8 m15; T (-47) 72 m20; T 23 36 m21; T 11 144 m22].
Definition p717 : pref := [T (-13) 24 m26; T 1 12 m28; T (-5) 48 m30; T (-1) 4 m405; T (-1) 9 m509; T 1 18 m510; T (-5) 72 m511].
Definition p718 : pref := [T (-13) 48 m4; T 1 24 m5; T (-5) 96 m6; T (-1) 8 m15; T (-1) 18 m20; T 1 36 m21; T (-5) 144 m22; T 13 48 m929; T (-1) 24 m930; T 5 96 m931; T 1 8 m935; T 1 18 m939; T (-1) 36 m940; T 5 144 m941].
Definition p719 : pref := [T (-1) 1 m932; T 1 1 m936].
Definition p720 : pref := [T (-1) 8 m933; T 1 8 m934; T 1 8 m937; T (-1) 8 m938].
Definition p721 : pref := [T (-5) 12 m4; T 4 3 m5; T 5 24 m6; T 1 2 m15; T (-7) 9 m20; T 8 9 m21; T 5 36 m22].
Definition p722 : pref := [T 5 24 m26; T (-2) 3 m28; T (-5) 48 m30; T (-1) 4 m405; T 7 18 m509; T (-4) 9 m510; T (-5) 72 m511].
Definition p723 : pref := [T (-13) 12 m4; T 1 6 m5; T (-5) 24 m6; T (-1) 2 m15; T (-2) 9 m20; T 1 9 m21; T (-5) 36 m22].
Definition p724 : pref := [T 13 24 m26; T (-1) 12 m28; T 5 48 m30; T 1 4 m405; T 1 9 m509; T (-1) 18 m510; T 5 72 m511].
Definition p725 : pref := [T (-1) 2 m14; T 1 1 m942].
Definition p726 : pref := [T 79 72 m4; T (-65) 72 m5; T (-137) 288 m6; T 37 24 m20; T (-13) 12 m21; T (-11) 24 m22].
Definition p727 : pref := [T (-209) 12 m4; T 44 3 m5; T 55 8 m6; T 3 2 m15; T (-11) 1 m20; T 8 1 m21; T 15 4 m22; T 19 1 m23; T (-16) 1 m24; T (-15) 2 m25].
Definition p728 : pref := [T (-31) 72 m4; T 17 72 m5; T 137 288 m6; T (-7) 24 m20; T (-1) 6 m21; T 11 24 m22].
Definition p729 : pref := [T 55 12 m4; T (-11) 6 m5; T (-55) 8 m6; T (-3) 2 m15; T 4 1 m20; T (-1) 1 m21; T (-15) 4 m22; T (-5) 1 m23; T 2 1 m24; T 15 2 m25].
Definition p730 : pref := [T (-3) 2 m14; T 3 2 m18].
Definition p731 : pref := [T (-19) 64 m4; T 1 4 m5; T 15 128 m6; T 1 32 m15; T (-11) 48 m20; T 1 6 m21; T 5 64 m22].
Definition p732 : pref := [T 167 72 m4; T (-157) 72 m5; T (-337) 288 m6; T (-1) 4 m15; T (-37) 72 m20; T 13 36 m21; T 1 36 m22; T (-19) 12 m23; T 4 3 m24; T 5 8 m25].
Definition p733 : pref := [T 5 64 m4; T (-1) 32 m5; T (-15) 128 m6; T (-1) 32 m15; T 1 12 m20; T (-1) 48 m21; T (-5) 64 m22].
Definition p734 : pref := [T (-71) 72 m4; T 61 72 m5; T 337 288 m6; T 1 4 m15; T (-29) 72 m20; T 5 9 m21; T (-1) 36 m22; T 5 12 m23; T (-1) 6 m24; T (-5) 8 m25].
Definition p735 : pref := [T (-3) 64 m7; T (-3) 64 m8; T (-1) 32 m9; T 5 16 m10; T (-3) 8 m11; T (-1) 4 m16; T 11 32 m17].
Definition p736 : pref := [T (-1) 32 m14; T 1 32 m18].
Definition p737 : pref := [T (-49) 72 m4; T 19 36 m5; T 49 144 m6; T (-7) 6 m20; T 5 6 m21; T 1 3 m22; T 5 24 m23; T (-1) 3 m24; T (-1) 16 m25].
Definition p738 : pref := [T (-31) 72 m4; T 5 18 m5; T 49 144 m6; T (-1) 6 m20; T (-1) 6 m21; T 1 3 m22; T (-5) 24 m23; T 1 12 m24; T (-1) 16 m25].
Definition p739 : pref := [T (-5) 3 m4; T 5 6 m5; T 5 6 m6; T (-2) 3 m20; T 1 3 m21; T 1 3 m22; T 4 9 m23; T (-2) 9 m24; T (-2) 9 m25].
Definition p740 : pref := [T (-7) 36 m32; T (-15253) 7290 m33; T 16 81 m34; T (-1) 3 m35; T 502 729 m36; T (-16) 81 m37; T (-7) 36 m38; T (-3518) 1215 m39; T 16 27 m40; T (-2) 9 m41; T 7 18 m42; T 19499 4860 m43; T (-16) 27 m44; T 4 9 m45; T 31 108 m46; T 2 9 m47; T (-1) 9 m48; T 4 9 m49; T 32 1215 m50; T 4 9 m51; T 32 1215 m52; T (-8) 9 m53; T (-64) 1215 m54; T (-1) 6 m239; T (-2) 3 m240; T (-1) 6 m241; T 1 3 m242; T 1 3 m243; T 1 3 m244; T (-1) 9 m280; T 4 9 m281; T (-40) 243 m282; T 64 243 m283; T (-1) 9 m284; T 4 9 m285; T (-56) 81 m286; T 2 9 m287; T (-8) 9 m288; T 16 27 m289; T 7 27 m406; T (-2) 3 m407; T (-28) 9 m408; T 175 27 m409; T (-2) 3 m410; T (-98) 27 m411; T 4 3 m412; T (-52) 243 m512; T (-185) 162 m513; T 52 243 m514; T (-52) 81 m515; T (-52) 243 m516; T 52 81 m517; T 52 81 m518; T 295 243 m519; T 1 3 m520; T (-1) 2 m521; T (-2) 3 m522; T 1 3 m523].
Definition p741 : pref := [T 1 3 m55; T 1 3 m56; T (-2) 3 m57; T 1 3 m245; T 1 3 m246; T (-2) 3 m247].
Definition p742 : pref := [T (-2) 3 m58; T (-26) 9 m59; T (-14) 9 m60; T 4 9 m61; T 8 9 m62; T (-8) 9 m63; T (-2) 3 m64; T (-16) 9 m65; T (-8) 9 m66; T 4 9 m67; T 4 3 m68; T 20 9 m69; T 16 9 m70; T 16 9 m71; T 14 9 m72; T (-2) 9 m73; T (-10) 9 m74; T 2 9 m75; T 16 9 m76; T (-16) 9 m77; T 32 9 m78; T 16 9 m79; T (-16) 9 m80; T (-32) 9 m81; T (-4) 3 m248; T (-8) 3 m249; T 4 9 m250; T (-8) 9 m251; T (-4) 3 m252; T 4 9 m253; T 8 3 m254; T 4 3 m255; T 4 3 m256; T (-16) 9 m290; T 32 9 m291; T (-16) 9 m292; T 8 3 m413; T (-16) 3 m414; T 8 3 m415; T (-14) 3 m524; T (-40) 9 m525; T 2 1 m526; T 10 3 m527; T 92 9 m528; T 2 1 m529; T (-2) 3 m530; T (-64) 9 m531; T (-14) 3 m532; T 4 3 m533; T 10 3 m534; T (-2) 3 m535].
Definition p743 : pref := [T (-5) 9 m4; T 5 18 m5; T 5 18 m6; T (-11) 18 m82; T (-2) 3 m83; T (-11) 18 m84; T (-4) 9 m85; T 11 9 m86; T 8 9 m87; T 4 9 m88; T (-2) 9 m89; T 8 9 m90; T 8 9 m91; T (-16) 9 m92; T (-5) 9 m257; T (-16) 9 m258; T (-5) 9 m259; T 10 9 m260; T 8 9 m261; T 8 9 m262; T 8 9 m291; T (-16) 9 m292; T 8 9 m293; T (-4) 3 m414; T 8 3 m415; T (-4) 3 m416; T (-1) 1 m536; T 2 1 m537; T 2 3 m538; T (-1) 1 m539; T (-4) 3 m540; T 2 3 m541].
Definition p744 : pref := [T 1679 2916 m4; T 283 540 m5; T (-4) 27 m6; T (-8) 81 m23; T 2 9 m82; T 1 36 m84; T (-1) 9 m85; T (-1) 4 m86; T 1 9 m88; T (-2) 9 m90; T 2 9 m91; T 502 729 m93; T (-16) 81 m94; T (-1993) 1215 m95; T 8 27 m96; T 32 1215 m97; T (-32) 1215 m98; T 2 9 m257; T 1 9 m258; T 1 18 m259; T (-5) 18 m260; T 1 9 m261; T (-2) 9 m262; T 2 9 m291; T (-2) 9 m293; T 1 9 m294; T 20 243 m295; T 64 243 m296; T (-28) 81 m297; T (-1) 9 m298; T (-1) 3 m414; T 1 3 m416; T (-28) 9 m417; T 91 27 m418; T (-7) 27 m419; T (-1) 2 m536; T 191 486 m537; T 1 3 m538; T (-1) 3 m540; T 26 243 m542; T 52 243 m543; T (-26) 81 m544; T (-52) 243 m545; T 26 81 m546].
Definition p745 : pref := [T 2 3 m58; T 20 9 m59; T 2 3 m60; T (-4) 9 m61; T (-8) 9 m62; T 8 9 m63; T 2 3 m64; T 4 3 m65; T 8 9 m66; T (-4) 9 m67; T (-4) 3 m68; T (-4) 3 m69; T (-4) 3 m70; T (-4) 3 m71; T (-8) 9 m72; T 2 3 m74; T (-16) 9 m76; T 16 9 m77; T (-32) 9 m78; T (-16) 9 m79; T 16 9 m80; T 32 9 m81; T 4 3 m248; T 8 3 m249; T (-4) 9 m250; T 8 9 m251; T 4 3 m252; T (-4) 9 m253; T (-8) 3 m254; T (-4) 3 m255; T (-4) 3 m256; T 16 9 m290; T (-32) 9 m291; T 16 9 m292; T (-8) 3 m413; T 4 1 m414; T (-4) 3 m416; T 4 1 m524; T 40 9 m525; T (-2) 1 m526; T (-2) 1 m527; T (-80) 9 m528; T (-2) 1 m529; T 40 9 m531; T 4 1 m532; T (-2) 1 m534].
Definition p746 : pref := [T (-25) 54 m99; T (-27667) 14580 m100; T 32 81 m101; T 1 3 m102; T (-2) 9 m103; T 680 729 m104; T (-32) 81 m105; T (-4) 9 m106; T 5 36 m107; T (-10958) 3645 m108; T 64 81 m109; T (-356) 729 m110; T 32 81 m111; T 4 9 m112; T 1 12 m113; T 18491 7290 m114; T (-32) 81 m115; T 9743 3645 m116; T (-64) 81 m117; T (-4) 9 m118; T 17 108 m119; T (-4) 9 m120; T 1 9 m121; T 64 1215 m122; T 8 9 m123; T (-8) 9 m124; T (-8) 9 m125; T 64 1215 m126; T 8 9 m127; T (-64) 1215 m128; T (-64) 1215 m129; T (-1) 6 m263; T 2 3 m264; T (-2) 9 m265; T 1 6 m266; T 2 3 m267; T 1 18 m268; T (-1) 2 m269; T (-2) 3 m270; T 8 9 m299; T 128 243 m300; T (-1) 9 m301; T (-8) 9 m302; T (-220) 243 m303; T 1 9 m304; T 92 243 m305; T (-44) 9 m420; T (-4) 3 m421; T 56 9 m422; T 4 3 m423; T (-4) 3 m424; T 151 486 m547; T 332 243 m548; T 104 243 m549; T (-208) 243 m550; T (-208) 243 m551; T 104 243 m552; T 173 243 m553; T 104 243 m554; T (-1) 6 m555; T (-1169) 486 m556; T (-1) 1 m557; T 11 18 m558; T 4 3 m559; T (-1) 3 m560].
Definition p747 : pref := [T (-4) 3 m130; T (-4) 3 m131; T 8 3 m132; T 4 3 m425; T (-16) 1 m426; T 100 3 m427; T (-56) 3 m428].
Definition p748 : pref := [T (-325) 243 m4; T 461 243 m5; T 2 9 m6; T (-10) 81 m20; T 20 81 m21; T 4 27 m23; T (-8) 27 m24; T (-190) 243 m95; T 4 27 m96; T (-1) 12 m294; T (-5) 81 m295; T (-8) 81 m297; T 1 12 m298; T 13 81 m306; T 7 6 m418; T (-7) 6 m419; T (-10) 81 m561].
Definition p749 : pref := [T 608 243 m4; T (-838) 243 m5; T (-4) 9 m6; T 32 81 m20; T (-64) 81 m21; T (-8) 27 m23; T 16 27 m24; T 338 243 m95; T (-8) 27 m96; T 1 6 m294; T 10 81 m295; T 16 81 m297; T (-1) 6 m298; T (-26) 81 m306; T (-7) 3 m418; T 7 3 m419; T 32 81 m561].
Definition p750 : pref := [T (-1) 27 m4; T 1 27 m5; T (-1) 12 m161; T 1 12 m164; T 1 12 m310; T 1 27 m315; T (-1) 12 m316; T (-1) 27 m317].
Definition p751 : pref := [T 2 9 m294; T (-8) 81 m295; T (-8) 81 m297; T (-4) 9 m298; T 16 81 m306; T 2 9 m391].
Definition p752 : pref := [T (-2) 9 m294; T 8 81 m295; T 8 81 m297; T 4 9 m298; T (-16) 81 m306; T (-2) 9 m391].
Definition p753 : pref := [T (-2) 9 m294; T (-8) 81 m295; T (-8) 81 m297; T 4 9 m298; T 16 81 m306; T (-2) 9 m391].
Definition p754 : pref := [T (-29) 27 m392; T 13 27 m393; T 2 81 m594; T (-2) 81 m595; T 8 27 m601].
Definition p755 : pref := [T (-1) 9 m596; T (-1) 9 m602; T (-1) 9 m943; T 2 9 m944; T (-1) 9 m945; T 2 9 m946].
Definition p756 : pref := [T (-4) 81 m597; T (-4) 81 m598; T 8 81 m599; T (-16) 27 m603; T 37 27 m604; T 5 27 m947; T (-26) 27 m948].
Definition p757 : pref := [T 305 324 m143; T (-2) 9 m144; T (-1) 120 m607; T 305 324 m608; T (-2) 9 m609; T (-305) 162 m610; T 4 9 m611; T 13 54 m754; T 13 54 m755; T (-13) 27 m756].
Definition p758 : pref := [T (-305) 648 m157; T 1 9 m158; T 305 648 m612; T (-1) 9 m613; T (-13) 108 m757; T 13 108 m758].
Definition p759 : pref := [T 305 324 m614; T (-2) 9 m615; T (-305) 324 m616; T 2 9 m617; T 13 54 m759; T (-13) 54 m760].
Definition p760 : pref := [T 163 216 m157; T (-1) 6 m158; T (-163) 216 m618; T 1 6 m619; T 5 36 m757; T (-5) 36 m761].
Definition p761 : pref := [T (-71) 54 m157; T 1 3 m158; T 71 54 m618; T (-1) 3 m619; T (-4) 9 m757; T 4 9 m761].
Definition p762 : pref := [T 5 12 m4; T (-5) 24 m5; T (-5) 24 m6; T 1 6 m20; T (-1) 12 m21; T (-1) 12 m22; T (-1) 9 m23; T 1 18 m24; T 1 18 m25].
Definition p763 : pref := [T 7 144 m32; T 253 29160 m33; T 2 81 m34; T 1 12 m35; T 128 729 m36; T (-2) 81 m37; T 7 144 m38; T (-911) 2430 m39; T 2 27 m40; T 1 18 m41; T (-7) 72 m42; T 4021 19440 m43; T (-2) 27 m44; T (-1) 9 m45; T (-7) 432 m46; T (-1) 18 m47; T 1 36 m48; T (-1) 9 m49; T (-8) 1215 m50; T (-1) 9 m51; T (-8) 1215 m52; T 2 9 m53; T 16 1215 m54; T 1 24 m239; T 1 6 m240; T 1 24 m241; T (-1) 12 m242; T (-1) 12 m243; T (-1) 12 m244; T 1 36 m280; T (-1) 9 m281; T 10 243 m282; T (-16) 243 m283; T 1 36 m284; T (-1) 9 m285; T 14 81 m286; T (-1) 18 m287; T 2 9 m288; T (-4) 27 m289; T (-7) 108 m406; T 1 6 m407; T 7 9 m408; T (-175) 108 m409; T 1 6 m410; T 49 54 m411; T (-1) 3 m412; T (-11) 243 m512; T (-7) 648 m513; T 11 243 m514; T (-11) 81 m515; T (-11) 243 m516; T 11 81 m517; T 11 81 m518; T (-199) 972 m519; T (-1) 12 m520; T 1 8 m521; T 1 6 m522; T (-1) 12 m523; T 121 1296 m621; T (-1) 36 m622; T 1 480 m797; T 121 1296 m798; T (-1) 36 m799; T (-121) 648 m800; T 1 18 m801; T 11 216 m876; T 11 216 m877; T (-11) 108 m878].
Definition p764 : pref := [T (-1) 12 m55; T (-1) 12 m56; T 1 6 m57; T (-1) 12 m245; T (-1) 12 m246; T 1 6 m247].
Definition p765 : pref := [T 1 6 m58; T 13 18 m59; T 7 18 m60; T (-1) 9 m61; T (-2) 9 m62; T 2 9 m63; T 1 6 m64; T 4 9 m65; T 2 9 m66; T (-1) 9 m67; T (-1) 3 m68; T (-5) 9 m69; T (-4) 9 m70; T (-4) 9 m71; T (-7) 18 m72; T 1 18 m73; T 5 18 m74; T (-1) 18 m75; T (-4) 9 m76; T 4 9 m77; T (-8) 9 m78; T (-4) 9 m79; T 4 9 m80; T 8 9 m81; T 1 3 m248; T 2 3 m249; T (-1) 9 m250; T 2 9 m251; T 1 3 m252; T (-1) 9 m253; T (-2) 3 m254; T (-1) 3 m255; T (-1) 3 m256; T 4 9 m290; T (-8) 9 m291; T 4 9 m292; T (-2) 3 m413; T 4 3 m414; T (-2) 3 m415; T 7 6 m524; T 10 9 m525; T (-1) 2 m526; T (-5) 6 m527; T (-23) 9 m528; T (-1) 2 m529; T 1 6 m530; T 16 9 m531; T 7 6 m532; T (-1) 3 m533; T (-5) 6 m534; T 1 6 m535].
Definition p766 : pref := [T 5 36 m4; T (-5) 72 m5; T (-5) 72 m6; T 11 72 m82; T 1 6 m83; T 11 72 m84; T 1 9 m85; T (-11) 36 m86; T (-2) 9 m87; T (-1) 9 m88; T 1 18 m89; T (-2) 9 m90; T (-2) 9 m91; T 4 9 m92; T 5 36 m257; T 4 9 m258; T 5 36 m259; T (-5) 18 m260; T (-2) 9 m261; T (-2) 9 m262; T (-2) 9 m291; T 4 9 m292; T (-2) 9 m293; T 1 3 m414; T (-2) 3 m415; T 1 3 m416; T 1 4 m536; T (-1) 2 m537; T (-1) 6 m538; T 1 4 m539; T 1 3 m540; T (-1) 6 m541].
Definition p767 : pref := [T 1321 11664 m4; T (-283) 2160 m5; T (-1) 54 m6; T (-1) 81 m23; T (-1) 18 m82; T (-1) 144 m84; T 1 36 m85; T 1 16 m86; T (-1) 36 m88; T 1 18 m90; T (-1) 18 m91; T 128 729 m93; T (-2) 81 m94; T (-677) 4860 m95; T 1 27 m96; T (-8) 1215 m97; T 8 1215 m98; T (-1) 18 m257; T (-1) 36 m258; T (-1) 72 m259; T 5 72 m260; T (-1) 36 m261; T 1 18 m262; T (-1) 18 m291; T 1 18 m293; T (-1) 36 m294; T (-5) 243 m295; T (-16) 243 m296; T 7 81 m297; T 1 36 m298; T 1 12 m414; T (-1) 12 m416; T 7 9 m417; T (-91) 108 m418; T 7 108 m419; T 1 8 m536; T (-287) 1944 m537; T (-1) 12 m538; T 1 12 m540; T 11 486 m542; T 11 243 m543; T (-11) 162 m544; T (-11) 243 m545; T 11 162 m546; T (-121) 2592 m627; T 1 72 m628; T 121 2592 m802; T (-1) 72 m803; T (-11) 432 m879; T 11 432 m880].
Definition p768 : pref := [T (-1) 6 m58; T (-5) 9 m59; T (-1) 6 m60; T 1 9 m61; T 2 9 m62; T (-2) 9 m63; T (-1) 6 m64; T (-1) 3 m65; T (-2) 9 m66; T 1 9 m67; T 1 3 m68; T 1 3 m69; T 1 3 m70; T 1 3 m71; T 2 9 m72; T (-1) 6 m74; T 4 9 m76; T (-4) 9 m77; T 8 9 m78; T 4 9 m79; T (-4) 9 m80; T (-8) 9 m81; T (-1) 3 m248; T (-2) 3 m249; T 1 9 m250; T (-2) 9 m251; T (-1) 3 m252; T 1 9 m253; T 2 3 m254; T 1 3 m255; T 1 3 m256; T (-4) 9 m290; T 8 9 m291; T (-4) 9 m292; T 2 3 m413; T (-1) 1 m414; T 1 3 m416; T (-1) 1 m524; T (-10) 9 m525; T 1 2 m526; T 1 2 m527; T 20 9 m528; T 1 2 m529; T (-10) 9 m531; T (-1) 1 m532; T 1 2 m534].
Definition p769 : pref := [T 1 216 m99; T (-25853) 58320 m100; T 4 81 m101; T (-1) 12 m102; T 1 18 m103; T 337 729 m104; T (-4) 81 m105; T 1 9 m106; T (-5) 144 m107; T (-5471) 7290 m108; T 8 81 m109; T (-418) 729 m110; T 4 81 m111; T (-1) 9 m112; T (-1) 48 m113; T 8269 29160 m114; T (-4) 81 m115; T 12157 14580 m116; T (-8) 81 m117; T 1 9 m118; T 31 432 m119; T 1 9 m120; T (-1) 36 m121; T (-16) 1215 m122; T (-2) 9 m123; T 2 9 m124; T 2 9 m125; T (-16) 1215 m126; T (-2) 9 m127; T 16 1215 m128; T 16 1215 m129; T 1 24 m263; T (-1) 6 m264; T 1 18 m265; T (-1) 24 m266; T (-1) 6 m267; T (-1) 72 m268; T 1 8 m269; T 1 6 m270; T (-2) 9 m299; T (-32) 243 m300; T 1 36 m301; T 2 9 m302; T 55 243 m303; T (-1) 36 m304; T (-23) 243 m305; T 11 9 m420; T 1 3 m421; T (-14) 9 m422; T (-1) 3 m423; T 1 3 m424; T (-919) 1944 m547; T (-179) 243 m548; T 22 243 m549; T (-44) 243 m550; T (-44) 243 m551; T 22 243 m552; T 595 972 m553; T 22 243 m554; T 1 24 m555; T 1553 1944 m556; T 1 4 m557; T (-11) 72 m558; T (-1) 3 m559; T 1 12 m560; T 121 1296 m804; T (-1) 36 m805; T (-121) 1296 m806; T 1 36 m807; T 11 216 m881; T (-11) 216 m882].
Definition p770 : pref := [T 1 3 m130; T 1 3 m131; T (-2) 3 m132; T (-1) 3 m425; T 4 1 m426; T (-25) 3 m427; T 14 3 m428].
Definition p771 : pref := [T 283 972 m4; T (-229) 486 m5; T (-1) 18 m6; T 11 162 m20; T (-11) 81 m21; T (-1) 27 m23; T 2 27 m24; T 229 972 m95; T (-1) 27 m96; T (-1) 24 m294; T (-5) 162 m295; T (-4) 81 m297; T 1 24 m298; T 13 162 m306; T 7 12 m418; T (-7) 12 m419; T 11 162 m561; T (-121) 864 m627; T 1 24 m628; T 121 864 m808; T (-1) 24 m809; T (-11) 144 m879; T 11 144 m883].
Definition p772 : pref := [T (-121) 1296 m143; T 1 36 m144; T (-1) 480 m607; T (-121) 1296 m608; T 1 36 m609; T 121 648 m610; T (-1) 18 m611; T (-11) 216 m754; T (-11) 216 m755; T 11 108 m756].
Definition p773 : pref := [T 121 2592 m157; T (-1) 72 m158; T (-121) 2592 m612; T 1 72 m613; T 11 432 m757; T (-11) 432 m758].
Definition p774 : pref := [T (-121) 1296 m614; T 1 36 m615; T 121 1296 m616; T (-1) 36 m617; T (-11) 216 m759; T 11 216 m760].
Definition p775 : pref := [T 121 864 m157; T (-1) 24 m158; T (-121) 864 m618; T 1 24 m619; T 11 144 m757; T (-11) 144 m761].
Definition p776 : pref := [T 29 108 m392; T (-13) 108 m393; T (-2) 27 m601; T (-1) 81 m830; T 1 81 m831].
Definition p777 : pref := [T 1 18 m228; T (-1) 9 m229; T 1 18 m394; T (-1) 9 m395; T 1 18 m833; T 1 18 m856].
Definition p778 : pref := [T (-1) 24 m294; T 1 54 m295; T 1 24 m298; T (-1) 54 m306].
Definition p779 : pref := [T 1 24 m294; T 1 54 m295; T (-1) 24 m298; T (-1) 54 m306].
Definition p780 : pref := [T (-1) 18 m294; T 2 81 m295; T 2 81 m297; T 1 9 m298; T (-4) 81 m306; T (-1) 18 m391].
Definition p781 : pref := [T 1 18 m294; T (-2) 81 m295; T (-2) 81 m297; T (-1) 9 m298; T 4 81 m306; T 1 18 m391].
Definition p782 : pref := [T 1 18 m294; T 2 81 m295; T 2 81 m297; T (-1) 9 m298; T (-4) 81 m306; T 1 18 m391].
Definition p783 : pref := [T (-5) 54 m396; T 13 27 m397; T 1 81 m597; T 1 81 m598; T (-2) 81 m599; T 4 27 m603; T (-37) 54 m857].
Definition p784 : pref := [T 5 2 m4; T (-5) 4 m5; T (-5) 4 m6; T 1 1 m20; T (-1) 2 m21; T (-1) 2 m22; T (-2) 3 m23; T 1 3 m24; T 1 3 m25].
Definition p785 : pref := [T 7 24 m32; T (-8347) 4860 m33; T 4 9 m34; T 1 2 m35; T 524 243 m36; T (-4) 9 m37; T 7 24 m38; T (-2341) 405 m39; T 4 3 m40; T 1 3 m41; T (-7) 12 m42; T 16901 3240 m43; T (-4) 3 m44; T (-2) 3 m45; T 1 8 m46; T (-1) 3 m47; T 1 6 m48; T (-2) 3 m49; T (-16) 405 m50; T (-2) 3 m51; T (-16) 405 m52; T 4 3 m53; T 32 405 m54; T 1 4 m239; T 1 1 m240; T 1 4 m241; T (-1) 2 m242; T (-1) 2 m243; T (-1) 2 m244; T 1 6 m280; T (-2) 3 m281; T 20 81 m282; T (-32) 81 m283; T 1 6 m284; T (-2) 3 m285; T 28 27 m286; T (-1) 3 m287; T 4 3 m288; T (-8) 9 m289; T (-7) 18 m406; T 1 1 m407; T 14 3 m408; T (-175) 18 m409; T 1 1 m410; T 49 9 m411; T (-2) 1 m412; T (-74) 81 m512; T (-215) 108 m513; T 74 81 m514; T (-74) 27 m515; T (-74) 81 m516; T 74 27 m517; T 74 27 m518; T (-95) 162 m519; T (-1) 2 m520; T 3 4 m521; T 1 1 m522; T (-1) 2 m523].
Definition p786 : pref := [T (-1) 2 m55; T (-1) 2 m56; T 1 1 m57; T (-1) 2 m245; T (-1) 2 m246; T 1 1 m247].
Definition p787 : pref := [T 1 1 m58; T 13 3 m59; T 7 3 m60; T (-2) 3 m61; T (-4) 3 m62; T 4 3 m63; T 1 1 m64; T 8 3 m65; T 4 3 m66; T (-2) 3 m67; T (-2) 1 m68; T (-10) 3 m69; T (-8) 3 m70; T (-8) 3 m71; T (-7) 3 m72; T 1 3 m73; T 5 3 m74; T (-1) 3 m75; T (-8) 3 m76; T 8 3 m77; T (-16) 3 m78; T (-8) 3 m79; T 8 3 m80; T 16 3 m81; T 2 1 m248; T 4 1 m249; T (-2) 3 m250; T 4 3 m251; T 2 1 m252; T (-2) 3 m253; T (-4) 1 m254; T (-2) 1 m255; T (-2) 1 m256; T 8 3 m290; T (-16) 3 m291; T 8 3 m292; T (-4) 1 m413; T 8 1 m414; T (-4) 1 m415; T 7 1 m524; T 20 3 m525; T (-3) 1 m526; T (-5) 1 m527; T (-46) 3 m528; T (-3) 1 m529; T 1 1 m530; T 32 3 m531; T 7 1 m532; T (-2) 1 m533; T (-5) 1 m534; T 1 1 m535].
Definition p788 : pref := [T 5 6 m4; T (-5) 12 m5; T (-5) 12 m6; T 11 12 m82; T 1 1 m83; T 11 12 m84; T 2 3 m85; T (-11) 6 m86; T (-4) 3 m87; T (-2) 3 m88; T 1 3 m89; T (-4) 3 m90; T (-4) 3 m91; T 8 3 m92; T 5 6 m257; T 8 3 m258; T 5 6 m259; T (-5) 3 m260; T (-4) 3 m261; T (-4) 3 m262; T (-4) 3 m291; T 8 3 m292; T (-4) 3 m293; T 2 1 m414; T (-4) 1 m415; T 2 1 m416; T 3 2 m536; T (-3) 1 m537; T (-1) 1 m538; T 3 2 m539; T 2 1 m540; T (-1) 1 m541].
Definition p789 : pref := [T 3041 1944 m4; T (-283) 360 m5; T (-1) 3 m6; T (-2) 9 m23; T (-1) 3 m82; T (-1) 24 m84; T 1 6 m85; T 3 8 m86; T (-1) 6 m88; T 1 3 m90; T (-1) 3 m91; T 524 243 m93; T (-4) 9 m94; T (-2107) 810 m95; T 2 3 m96; T (-16) 405 m97; T 16 405 m98; T (-1) 3 m257; T (-1) 6 m258; T (-1) 12 m259; T 5 12 m260; T (-1) 6 m261; T 1 3 m262; T (-1) 3 m291; T 1 3 m293; T (-1) 6 m294; T (-10) 81 m295; T (-32) 81 m296; T 14 27 m297; T 1 6 m298; T 1 2 m414; T (-1) 2 m416; T 14 3 m417; T (-91) 18 m418; T 7 18 m419; T 3 4 m536; T (-391) 324 m537; T (-1) 2 m538; T 1 2 m540; T 37 81 m542; T 74 81 m543; T (-37) 27 m544; T (-74) 81 m545; T 37 27 m546].
Definition p790 : pref := [T (-1) 1 m58; T (-10) 3 m59; T (-1) 1 m60; T 2 3 m61; T 4 3 m62; T (-4) 3 m63; T (-1) 1 m64; T (-2) 1 m65; T (-4) 3 m66; T 2 3 m67; T 2 1 m68; T 2 1 m69; T 2 1 m70; T 2 1 m71; T 4 3 m72; T (-1) 1 m74; T 8 3 m76; T (-8) 3 m77; T 16 3 m78; T 8 3 m79; T (-8) 3 m80; T (-16) 3 m81; T (-2) 1 m248; T (-4) 1 m249; T 2 3 m250; T (-4) 3 m251; T (-2) 1 m252; T 2 3 m253; T 4 1 m254; T 2 1 m255; T 2 1 m256; T (-8) 3 m290; T 16 3 m291; T (-8) 3 m292; T 4 1 m413; T (-6) 1 m414; T 2 1 m416; T (-6) 1 m524; T (-20) 3 m525; T 3 1 m526; T 3 1 m527; T 40 3 m528; T 3 1 m529; T (-20) 3 m531; T (-6) 1 m532; T 3 1 m534].
Definition p791 : pref := [T (-5) 12 m99; T (-55933) 9720 m100; T 8 9 m101; T (-1) 2 m102; T 1 3 m103; T 1210 243 m104; T (-8) 9 m105; T 2 3 m106; T (-5) 24 m107; T (-11371) 1215 m108; T 16 9 m109; T (-1372) 243 m110; T 8 9 m111; T (-2) 3 m112; T (-1) 8 m113; T 23309 4860 m114; T (-8) 9 m115; T 23957 2430 m116; T (-16) 9 m117; T 2 3 m118; T 7 8 m119; T 2 3 m120; T (-1) 6 m121; T (-32) 405 m122; T (-4) 3 m123; T 4 3 m124; T 4 3 m125; T (-32) 405 m126; T (-4) 3 m127; T 32 405 m128; T 32 405 m129; T 1 4 m263; T (-1) 1 m264; T 1 3 m265; T (-1) 4 m266; T (-1) 1 m267; T (-1) 12 m268; T 3 4 m269; T 1 1 m270; T (-4) 3 m299; T (-64) 81 m300; T 1 6 m301; T 4 3 m302; T 110 81 m303; T (-1) 6 m304; T (-46) 81 m305; T 22 3 m420; T 2 1 m421; T (-28) 3 m422; T (-2) 1 m423; T 2 1 m424; T (-1751) 324 m547; T (-566) 81 m548; T 148 81 m549; T (-296) 81 m550; T (-296) 81 m551; T 148 81 m552; T 1427 162 m553; T 148 81 m554; T 1 4 m555; T 1969 324 m556; T 3 2 m557; T (-11) 12 m558; T (-2) 1 m559; T 1 2 m560].
Definition p792 : pref := [T 2 1 m130; T 2 1 m131; T (-4) 1 m132; T (-2) 1 m425; T 24 1 m426; T (-50) 1 m427; T 28 1 m428].
Definition p793 : pref := [T 85 54 m4; T (-61) 27 m5; T (-1) 3 m6; T 5 9 m20; T (-10) 9 m21; T (-2) 9 m23; T 4 9 m24; T 55 54 m95; T (-2) 9 m96; T (-1) 12 m294; T (-5) 81 m295; T (-8) 81 m297; T 1 12 m298; T 13 81 m306; T 7 6 m418; T (-7) 6 m419; T 5 9 m561].
Definition p794 : pref := [T 877 162 m4; T (-661) 81 m5; T (-1) 1 m6; T 29 27 m20; T (-58) 27 m21; T (-2) 3 m23; T 4 3 m24; T 607 162 m95; T (-2) 3 m96; T (-1) 4 m294; T (-5) 27 m295; T (-8) 27 m297; T 1 4 m298; T 13 27 m306; T 7 2 m418; T (-7) 2 m419; T 29 27 m561].
Definition p795 : pref := [T 1 3 m228; T 1 3 m394; T 1 3 m833; T 1 3 m856; T (-1) 3 m944; T (-1) 3 m946].
Definition p796 : pref := [T (-1) 3 m294; T 4 27 m295; T 4 27 m297; T 2 3 m298; T (-8) 27 m306; T (-1) 3 m391].
Definition p797 : pref := [T 1 3 m294; T (-4) 27 m295; T (-4) 27 m297; T (-2) 3 m298; T 8 27 m306; T 1 3 m391].
Definition p798 : pref := [T 1 3 m294; T 4 27 m295; T 4 27 m297; T (-2) 3 m298; T (-8) 27 m306; T 1 3 m391].
Definition p799 : pref := [T 29 18 m392; T (-13) 18 m393; T (-1) 27 m594; T 1 27 m595; T (-4) 9 m601].
Definition p800 : pref := [T (-5) 9 m396; T 2 27 m597; T 2 27 m598; T (-4) 27 m599; T 8 9 m603; T (-37) 9 m857; T 13 9 m948].
Definition p801 : pref := [T 15 8 m4; T (-15) 16 m5; T (-15) 16 m6; T 3 4 m20; T (-3) 8 m21; T (-3) 8 m22; T (-1) 2 m23; T 1 4 m24; T 1 4 m25].
Definition p802 : pref := [T 7 32 m32; T (-4043) 720 m33; T 1 1 m34; T 3 8 m35; T 40 9 m36; T (-1) 1 m37; T 7 32 m38; T (-799) 60 m39; T 3 1 m40; T 1 4 m41; T (-7) 16 m42; T 2223 160 m43; T (-3) 1 m44; T (-1) 2 m45; T 19 32 m46; T (-1) 4 m47; T 1 8 m48; T (-1) 2 m49; T (-4) 135 m50; T (-1) 2 m51; T (-4) 135 m52; T 1 1 m53; T 8 135 m54; T 3 16 m239; T 3 4 m240; T 3 16 m241; T (-3) 8 m242; T (-3) 8 m243; T (-3) 8 m244; T 1 8 m280; T (-1) 2 m281; T 5 27 m282; T (-8) 27 m283; T 1 8 m284; T (-1) 2 m285; T 7 9 m286; T (-1) 4 m287; T 1 1 m288; T (-2) 3 m289; T (-7) 24 m406; T 3 4 m407; T 7 2 m408; T (-175) 24 m409; T 3 4 m410; T 49 12 m411; T (-3) 2 m412; T (-11) 6 m512; T (-79) 16 m513; T 11 6 m514; T (-11) 2 m515; T (-11) 6 m516; T 11 2 m517; T 11 2 m518; T 17 24 m519; T (-3) 8 m520; T 9 16 m521; T 3 4 m522; T (-3) 8 m523].
Definition p803 : pref := [T (-3) 8 m55; T (-3) 8 m56; T 3 4 m57; T (-3) 8 m245; T (-3) 8 m246; T 3 4 m247].
Definition p804 : pref := [T 3 4 m58; T 13 4 m59; T 7 4 m60; T (-1) 2 m61; T (-1) 1 m62; T 1 1 m63; T 3 4 m64; T 2 1 m65; T 1 1 m66; T (-1) 2 m67; T (-3) 2 m68; T (-5) 2 m69; T (-2) 1 m70; T (-2) 1 m71; T (-7) 4 m72; T 1 4 m73; T 5 4 m74; T (-1) 4 m75; T (-2) 1 m76; T 2 1 m77; T (-4) 1 m78; T (-2) 1 m79; T 2 1 m80; T 4 1 m81; T 3 2 m248; T 3 1 m249; T (-1) 2 m250; T 1 1 m251; T 3 2 m252; T (-1) 2 m253; T (-3) 1 m254; T (-3) 2 m255; T (-3) 2 m256; T 2 1 m290; T (-4) 1 m291; T 2 1 m292; T (-3) 1 m413; T 6 1 m414; T (-3) 1 m415; T 21 4 m524; T 5 1 m525; T (-9) 4 m526; T (-15) 4 m527; T (-23) 2 m528; T (-9) 4 m529; T 3 4 m530; T 8 1 m531; T 21 4 m532; T (-3) 2 m533; T (-15) 4 m534; T 3 4 m535].
Definition p805 : pref := [T 5 8 m4; T (-5) 16 m5; T (-5) 16 m6; T 11 16 m82; T 3 4 m83; T 11 16 m84; T 1 2 m85; T (-11) 8 m86; T (-1) 1 m87; T (-1) 2 m88; T 1 4 m89; T (-1) 1 m90; T (-1) 1 m91; T 2 1 m92; T 5 8 m257; T 2 1 m258; T 5 8 m259; T (-5) 4 m260; T (-1) 1 m261; T (-1) 1 m262; T (-1) 1 m291; T 2 1 m292; T (-1) 1 m293; T 3 2 m414; T (-3) 1 m415; T 3 2 m416; T 9 8 m536; T (-9) 4 m537; T (-3) 4 m538; T 9 8 m539; T 3 2 m540; T (-3) 4 m541].
Definition p806 : pref := [T 961 288 m4; T (-283) 480 m5; T (-3) 4 m6; T (-1) 2 m23; T (-1) 4 m82; T (-1) 32 m84; T 1 8 m85; T 9 32 m86; T (-1) 8 m88; T 1 4 m90; T (-1) 4 m91; T 40 9 m93; T (-1) 1 m94; T (-773) 120 m95; T 3 2 m96; T (-4) 135 m97; T 4 135 m98; T (-1) 4 m257; T (-1) 8 m258; T (-1) 16 m259; T 5 16 m260; T (-1) 8 m261; T 1 4 m262; T (-1) 4 m291; T 1 4 m293; T (-1) 8 m294; T (-5) 54 m295; T (-8) 27 m296; T 7 18 m297; T 1 8 m298; T 3 8 m414; T (-3) 8 m416; T 7 2 m417; T (-91) 24 m418; T 7 24 m419; T 9 16 m536; T (-71) 48 m537; T (-3) 8 m538; T 3 8 m540; T 11 12 m542; T 11 6 m543; T (-11) 4 m544; T (-11) 6 m545; T 11 4 m546].
Definition p807 : pref := [T (-3) 4 m58; T (-5) 2 m59; T (-3) 4 m60; T 1 2 m61; T 1 1 m62; T (-1) 1 m63; T (-3) 4 m64; T (-3) 2 m65; T (-1) 1 m66; T 1 2 m67; T 3 2 m68; T 3 2 m69; T 3 2 m70; T 3 2 m71; T 1 1 m72; T (-3) 4 m74; T 2 1 m76; T (-2) 1 m77; T 4 1 m78; T 2 1 m79; T (-2) 1 m80; T (-4) 1 m81; T (-3) 2 m248; T (-3) 1 m249; T 1 2 m250; T (-1) 1 m251; T (-3) 2 m252; T 1 2 m253; T 3 1 m254; T 3 2 m255; T 3 2 m256; T (-2) 1 m290; T 4 1 m291; T (-2) 1 m292; T 3 1 m413; T (-9) 2 m414; T 3 2 m416; T (-9) 2 m524; T (-5) 1 m525; T 9 4 m526; T 9 4 m527; T 10 1 m528; T 9 4 m529; T (-5) 1 m531; T (-9) 2 m532; T 9 4 m534].
Definition p808 : pref := [T (-21) 16 m99; T (-17237) 1440 m100; T 2 1 m101; T (-3) 8 m102; T 1 4 m103; T 169 18 m104; T (-2) 1 m105; T 1 2 m106; T (-5) 32 m107; T (-3479) 180 m108; T 4 1 m109; T (-89) 9 m110; T 2 1 m111; T (-1) 2 m112; T (-3) 32 m113; T 8101 720 m114; T (-2) 1 m115; T 7093 360 m116; T (-4) 1 m117; T 1 2 m118; T 53 32 m119; T 1 2 m120; T (-1) 8 m121; T (-8) 135 m122; T (-1) 1 m123; T 1 1 m124; T 1 1 m125; T (-8) 135 m126; T (-1) 1 m127; T 8 135 m128; T 8 135 m129; T 3 16 m263; T (-3) 4 m264; T 1 4 m265; T (-3) 16 m266; T (-3) 4 m267; T (-1) 16 m268; T 9 16 m269; T 3 4 m270; T (-1) 1 m299; T (-16) 27 m300; T 1 8 m301; T 1 1 m302; T 55 54 m303; T (-1) 8 m304; T (-23) 54 m305; T 11 2 m420; T 3 2 m421; T (-7) 1 m422; T (-3) 2 m423; T 3 2 m424; T (-415) 48 m547; T (-59) 6 m548; T 11 3 m549; T (-22) 3 m550; T (-22) 3 m551; T 11 3 m552; T 379 24 m553; T 11 3 m554; T 3 16 m555; T 329 48 m556; T 9 8 m557; T (-11) 16 m558; T (-3) 2 m559; T 3 8 m560].
Definition p809 : pref := [T 3 2 m130; T 3 2 m131; T (-3) 1 m132; T (-3) 2 m425; T 18 1 m426; T (-75) 2 m427; T 21 1 m428].
Definition p810 : pref := [T 283 72 m4; T (-205) 36 m5; T (-3) 4 m6; T 11 12 m20; T (-11) 6 m21; T (-1) 2 m23; T 1 1 m24; T 181 72 m95; T (-1) 2 m96; T (-1) 16 m294; T (-5) 108 m295; T (-2) 27 m297; T 1 16 m298; T 13 108 m306; T 7 8 m418; T (-7) 8 m419; T 11 12 m561].
Definition p811 : pref := [T 29 24 m392; T (-13) 24 m393; T (-1) 3 m601; T (-1) 18 m830; T 1 18 m831].
Definition p812 : pref := [T 1 4 m228; T (-1) 2 m229; T 1 4 m394; T (-1) 2 m395; T 1 4 m833; T 1 4 m856].
Definition p813 : pref := [T (-5) 12 m396; T 13 6 m397; T (-1) 9 m599; T 2 3 m603; T (-37) 12 m857; T 1 9 m884; T 1 9 m885].
Definition p814 : pref := [T 1 16 m294; T 1 36 m295; T (-1) 16 m298; T (-1) 36 m306].
Definition p815 : pref := [T (-1) 16 m294; T 1 36 m295; T 1 16 m298; T (-1) 36 m306].
Definition p816 : pref := [T (-1) 4 m294; T 1 9 m295; T 1 9 m297; T 1 2 m298; T (-2) 9 m306; T (-1) 4 m391].
Definition p817 : pref := [T 1 4 m294; T (-1) 9 m295; T (-1) 9 m297; T (-1) 2 m298; T 2 9 m306; T 1 4 m391].
Definition p818 : pref := [T 1 4 m294; T 1 9 m295; T 1 9 m297; T (-1) 2 m298; T (-2) 9 m306; T 1 4 m391].
Definition p819 : pref := [T (-5) 1 m4; T 5 2 m5; T 5 2 m6; T (-2) 1 m20; T 1 1 m21; T 1 1 m22; T 4 3 m23; T (-2) 3 m24; T (-2) 3 m25].
Definition p820 : pref := [T (-7) 12 m32; T (-35813) 2430 m33; T 16 9 m34; T (-1) 1 m35; T 1910 243 m36; T (-16) 9 m37; T (-7) 12 m38; T (-10918) 405 m39; T 16 3 m40; T (-2) 3 m41; T 7 6 m42; T 51979 1620 m43; T (-16) 3 m44; T 4 3 m45; T 7 4 m46; T 2 3 m47; T (-1) 3 m48; T 4 3 m49; T 32 405 m50; T 4 3 m51; T 32 405 m52; T (-8) 3 m53; T (-64) 405 m54; T (-1) 2 m239; T (-2) 1 m240; T (-1) 2 m241; T 1 1 m242; T 1 1 m243; T 1 1 m244; T (-1) 3 m280; T 4 3 m281; T (-40) 81 m282; T 64 81 m283; T (-1) 3 m284; T 4 3 m285; T (-56) 27 m286; T 2 3 m287; T (-8) 3 m288; T 16 9 m289; T 7 9 m406; T (-2) 1 m407; T (-28) 3 m408; T 175 9 m409; T (-2) 1 m410; T (-98) 9 m411; T 4 1 m412; T (-164) 81 m512; T (-409) 54 m513; T 164 81 m514; T (-164) 27 m515; T (-164) 81 m516; T 164 27 m517; T 164 27 m518; T 407 81 m519; T 1 1 m520; T (-3) 2 m521; T (-2) 1 m522; T 1 1 m523].
Definition p821 : pref := [T 1 1 m55; T 1 1 m56; T (-2) 1 m57; T 1 1 m245; T 1 1 m246; T (-2) 1 m247].
Definition p822 : pref := [T (-2) 1 m58; T (-26) 3 m59; T (-14) 3 m60; T 4 3 m61; T 8 3 m62; T (-8) 3 m63; T (-2) 1 m64; T (-16) 3 m65; T (-8) 3 m66; T 4 3 m67; T 4 1 m68; T 20 3 m69; T 16 3 m70; T 16 3 m71; T 14 3 m72; T (-2) 3 m73; T (-10) 3 m74; T 2 3 m75; T 16 3 m76; T (-16) 3 m77; T 32 3 m78; T 16 3 m79; T (-16) 3 m80; T (-32) 3 m81; T (-4) 1 m248; T (-8) 1 m249; T 4 3 m250; T (-8) 3 m251; T (-4) 1 m252; T 4 3 m253; T 8 1 m254; T 4 1 m255; T 4 1 m256; T (-16) 3 m290; T 32 3 m291; T (-16) 3 m292; T 8 1 m413; T (-16) 1 m414; T 8 1 m415; T (-14) 1 m524; T (-40) 3 m525; T 6 1 m526; T 10 1 m527; T 92 3 m528; T 6 1 m529; T (-2) 1 m530; T (-64) 3 m531; T (-14) 1 m532; T 4 1 m533; T 10 1 m534; T (-2) 1 m535].
Definition p823 : pref := [T (-5) 3 m4; T 5 6 m5; T 5 6 m6; T (-11) 6 m82; T (-2) 1 m83; T (-11) 6 m84; T (-4) 3 m85; T 11 3 m86; T 8 3 m87; T 4 3 m88; T (-2) 3 m89; T 8 3 m90; T 8 3 m91; T (-16) 3 m92; T (-5) 3 m257; T (-16) 3 m258; T (-5) 3 m259; T 10 3 m260; T 8 3 m261; T 8 3 m262; T 8 3 m291; T (-16) 3 m292; T 8 3 m293; T (-4) 1 m414; T 8 1 m415; T (-4) 1 m416; T (-3) 1 m536; T 6 1 m537; T 2 1 m538; T (-3) 1 m539; T (-4) 1 m540; T 2 1 m541].
Definition p824 : pref := [T 5791 972 m4; T 283 180 m5; T (-4) 3 m6; T (-8) 9 m23; T 2 3 m82; T 1 12 m84; T (-1) 3 m85; T (-3) 4 m86; T 1 3 m88; T (-2) 3 m90; T 2 3 m91; T 1910 243 m93; T (-16) 9 m94; T (-5693) 405 m95; T 8 3 m96; T 32 405 m97; T (-32) 405 m98; T 2 3 m257; T 1 3 m258; T 1 6 m259; T (-5) 6 m260; T 1 3 m261; T (-2) 3 m262; T 2 3 m291; T (-2) 3 m293; T 1 3 m294; T 20 81 m295; T 64 81 m296; T (-28) 27 m297; T (-1) 3 m298; T (-1) 1 m414; T 1 1 m416; T (-28) 3 m417; T 91 9 m418; T (-7) 9 m419; T (-3) 2 m536; T 79 162 m537; T 1 1 m538; T (-1) 1 m540; T 82 81 m542; T 164 81 m543; T (-82) 27 m544; T (-164) 81 m545; T 82 27 m546].
Definition p825 : pref := [T 2 1 m58; T 20 3 m59; T 2 1 m60; T (-4) 3 m61; T (-8) 3 m62; T 8 3 m63; T 2 1 m64; T 4 1 m65; T 8 3 m66; T (-4) 3 m67; T (-4) 1 m68; T (-4) 1 m69; T (-4) 1 m70; T (-4) 1 m71; T (-8) 3 m72; T 2 1 m74; T (-16) 3 m76; T 16 3 m77; T (-32) 3 m78; T (-16) 3 m79; T 16 3 m80; T 32 3 m81; T 4 1 m248; T 8 1 m249; T (-4) 3 m250; T 8 3 m251; T 4 1 m252; T (-4) 3 m253; T (-8) 1 m254; T (-4) 1 m255; T (-4) 1 m256; T 16 3 m290; T (-32) 3 m291; T 16 3 m292; T (-8) 1 m413; T 12 1 m414; T (-4) 1 m416; T 12 1 m524; T 40 3 m525; T (-6) 1 m526; T (-6) 1 m527; T (-80) 3 m528; T (-6) 1 m529; T 40 3 m531; T 12 1 m532; T (-6) 1 m534].
Definition p826 : pref := [T (-19) 6 m99; T (-101267) 4860 m100; T 32 9 m101; T 1 1 m102; T (-2) 3 m103; T 3496 243 m104; T (-32) 9 m105; T (-4) 3 m106; T 5 12 m107; T (-41278) 1215 m108; T 64 9 m109; T (-3172) 243 m110; T 32 9 m111; T 4 3 m112; T 1 4 m113; T 55291 2430 m114; T (-32) 9 m115; T 40063 1215 m116; T (-64) 9 m117; T (-4) 3 m118; T 9 4 m119; T (-4) 3 m120; T 1 3 m121; T 64 405 m122; T 8 3 m123; T (-8) 3 m124; T (-8) 3 m125; T 64 405 m126; T 8 3 m127; T (-64) 405 m128; T (-64) 405 m129; T (-1) 2 m263; T 2 1 m264; T (-2) 3 m265; T 1 2 m266; T 2 1 m267; T 1 6 m268; T (-3) 2 m269; T (-2) 1 m270; T 8 3 m299; T 128 81 m300; T (-1) 3 m301; T (-8) 3 m302; T (-220) 81 m303; T 1 3 m304; T 92 81 m305; T (-44) 3 m420; T (-4) 1 m421; T 56 3 m422; T 4 1 m423; T (-4) 1 m424; T (-745) 162 m547; T (-116) 81 m548; T 328 81 m549; T (-656) 81 m550; T (-656) 81 m551; T 328 81 m552; T 1069 81 m553; T 328 81 m554; T (-1) 2 m555; T (-721) 162 m556; T (-3) 1 m557; T 11 6 m558; T 4 1 m559; T (-1) 1 m560].
Definition p827 : pref := [T (-4) 1 m130; T (-4) 1 m131; T 8 1 m132; T 4 1 m425; T (-48) 1 m426; T 100 1 m427; T (-56) 1 m428].
Definition p828 : pref := [T 212 27 m4; T (-310) 27 m5; T (-4) 3 m6; T 8 9 m20; T (-16) 9 m21; T (-8) 9 m23; T 16 9 m24; T 134 27 m95; T (-8) 9 m96; T 1 6 m294; T 10 81 m295; T 16 81 m297; T (-1) 6 m298; T (-26) 81 m306; T (-7) 3 m418; T 7 3 m419; T 8 9 m561].
Definition p829 : pref := [T (-919) 81 m4; T 1325 81 m5; T 2 1 m6; T (-46) 27 m20; T 92 27 m21; T 4 3 m23; T (-8) 3 m24; T (-568) 81 m95; T 4 3 m96; T (-1) 4 m294; T (-5) 27 m295; T (-8) 27 m297; T 1 4 m298; T 13 27 m306; T 7 2 m418; T (-7) 2 m419; T (-46) 27 m561].
Definition p830 : pref := [T (-1) 9 m4; T 1 9 m5; T (-1) 4 m161; T 1 4 m164; T 1 4 m310; T 1 9 m315; T (-1) 4 m316; T (-1) 9 m317].
Definition p831 : pref := [T 2 3 m294; T (-8) 27 m295; T (-8) 27 m297; T (-4) 3 m298; T 16 27 m306; T 2 3 m391].
Definition p832 : pref := [T (-2) 3 m294; T 8 27 m295; T 8 27 m297; T 4 3 m298; T (-16) 27 m306; T (-2) 3 m391].
Definition p833 : pref := [T (-2) 3 m294; T (-8) 27 m295; T (-8) 27 m297; T 4 3 m298; T 16 27 m306; T (-2) 3 m391].
Definition p834 : pref := [T (-29) 9 m392; T 13 9 m393; T 2 27 m594; T (-2) 27 m595; T 8 9 m601].
Definition p835 : pref := [T (-1) 3 m596; T (-1) 3 m602; T (-1) 3 m943; T 2 3 m944; T (-1) 3 m945; T 2 3 m946].
Definition p836 : pref := [T (-4) 27 m597; T (-4) 27 m598; T 8 27 m599; T (-16) 9 m603; T 37 9 m604; T 5 9 m947; T (-26) 9 m948].
Definition p837 : pref := [T 5 3 m4; T (-5) 6 m5; T (-5) 6 m6; T 2 3 m20; T (-1) 3 m21; T (-1) 3 m22; T (-4) 9 m23; T 2 9 m24; T 2 9 m25].
Definition p838 : pref := [T 7 36 m32; T (-13487) 7290 m33; T 32 81 m34; T 1 3 m35; T 1400 729 m36; T (-32) 81 m37; T 7 36 m38; T (-6532) 1215 m39; T 32 27 m40; T 2 9 m41; T (-7) 18 m42; T 25021 4860 m43; T (-32) 27 m44; T (-4) 9 m45; T 17 108 m46; T (-2) 9 m47; T 1 9 m48; T (-4) 9 m49; T (-32) 1215 m50; T (-4) 9 m51; T (-32) 1215 m52; T 8 9 m53; T 64 1215 m54; T 1 6 m239; T 2 3 m240; T 1 6 m241; T (-1) 3 m242; T (-1) 3 m243; T (-1) 3 m244; T 1 9 m280; T (-4) 9 m281; T 40 243 m282; T (-64) 243 m283; T 1 9 m284; T (-4) 9 m285; T 56 81 m286; T (-2) 9 m287; T 8 9 m288; T (-16) 27 m289; T (-7) 27 m406; T 2 3 m407; T 28 9 m408; T (-175) 27 m409; T 2 3 m410; T 98 27 m411; T (-4) 3 m412; T (-176) 243 m512; T (-271) 162 m513; T 176 243 m514; T (-176) 81 m515; T (-176) 243 m516; T 176 81 m517; T 176 81 m518; T (-67) 243 m519; T (-1) 3 m520; T 1 2 m521; T 2 3 m522; T (-1) 3 m523; T 121 324 m621; T (-1) 9 m622; T 1 480 m797; T 121 324 m798; T (-1) 9 m799; T (-121) 162 m800; T 2 9 m801; T 11 54 m876; T 11 54 m877; T (-11) 27 m878].
Definition p839 : pref := [T (-1) 3 m55; T (-1) 3 m56; T 2 3 m57; T (-1) 3 m245; T (-1) 3 m246; T 2 3 m247].
Definition p840 : pref := [T 2 3 m58; T 26 9 m59; T 14 9 m60; T (-4) 9 m61; T (-8) 9 m62; T 8 9 m63; T 2 3 m64; T 16 9 m65; T 8 9 m66; T (-4) 9 m67; T (-4) 3 m68; T (-20) 9 m69; T (-16) 9 m70; T (-16) 9 m71; T (-14) 9 m72; T 2 9 m73; T 10 9 m74; T (-2) 9 m75; T (-16) 9 m76; T 16 9 m77; T (-32) 9 m78; T (-16) 9 m79; T 16 9 m80; T 32 9 m81; T 4 3 m248; T 8 3 m249; T (-4) 9 m250; T 8 9 m251; T 4 3 m252; T (-4) 9 m253; T (-8) 3 m254; T (-4) 3 m255; T (-4) 3 m256; T 16 9 m290; T (-32) 9 m291; T 16 9 m292; T (-8) 3 m413; T 16 3 m414; T (-8) 3 m415; T 14 3 m524; T 40 9 m525; T (-2) 1 m526; T (-10) 3 m527; T (-92) 9 m528; T (-2) 1 m529; T 2 3 m530; T 64 9 m531; T 14 3 m532; T (-4) 3 m533; T (-10) 3 m534; T 2 3 m535].
Definition p841 : pref := [T 5 9 m4; T (-5) 18 m5; T (-5) 18 m6; T 11 18 m82; T 2 3 m83; T 11 18 m84; T 4 9 m85; T (-11) 9 m86; T (-8) 9 m87; T (-4) 9 m88; T 2 9 m89; T (-8) 9 m90; T (-8) 9 m91; T 16 9 m92; T 5 9 m257; T 16 9 m258; T 5 9 m259; T (-10) 9 m260; T (-8) 9 m261; T (-8) 9 m262; T (-8) 9 m291; T 16 9 m292; T (-8) 9 m293; T 4 3 m414; T (-8) 3 m415; T 4 3 m416; T 1 1 m536; T (-2) 1 m537; T (-2) 3 m538; T 1 1 m539; T 4 3 m540; T (-2) 3 m541].
Definition p842 : pref := [T 4069 2916 m4; T (-283) 540 m5; T (-8) 27 m6; T (-16) 81 m23; T (-2) 9 m82; T (-1) 36 m84; T 1 9 m85; T 1 4 m86; T (-1) 9 m88; T 2 9 m90; T (-2) 9 m91; T 1400 729 m93; T (-32) 81 m94; T (-3032) 1215 m95; T 16 27 m96; T (-32) 1215 m97; T 32 1215 m98; T (-2) 9 m257; T (-1) 9 m258; T (-1) 18 m259; T 5 18 m260; T (-1) 9 m261; T 2 9 m262; T (-2) 9 m291; T 2 9 m293; T (-1) 9 m294; T (-20) 243 m295; T (-64) 243 m296; T 28 81 m297; T 1 9 m298; T 1 3 m414; T (-1) 3 m416; T 28 9 m417; T (-91) 27 m418; T 7 27 m419; T 1 2 m536; T (-419) 486 m537; T (-1) 3 m538; T 1 3 m540; T 88 243 m542; T 176 243 m543; T (-88) 81 m544; T (-176) 243 m545; T 88 81 m546; T (-121) 648 m627; T 1 18 m628; T 121 648 m802; T (-1) 18 m803; T (-11) 108 m879; T 11 108 m880].
Definition p843 : pref := [T (-2) 3 m58; T (-20) 9 m59; T (-2) 3 m60; T 4 9 m61; T 8 9 m62; T (-8) 9 m63; T (-2) 3 m64; T (-4) 3 m65; T (-8) 9 m66; T 4 9 m67; T 4 3 m68; T 4 3 m69; T 4 3 m70; T 4 3 m71; T 8 9 m72; T (-2) 3 m74; T 16 9 m76; T (-16) 9 m77; T 32 9 m78; T 16 9 m79; T (-16) 9 m80; T (-32) 9 m81; T (-4) 3 m248; T (-8) 3 m249; T 4 9 m250; T (-8) 9 m251; T (-4) 3 m252; T 4 9 m253; T 8 3 m254; T 4 3 m255; T 4 3 m256; T (-16) 9 m290; T 32 9 m291; T (-16) 9 m292; T 8 3 m413; T (-4) 1 m414; T 4 3 m416; T (-4) 1 m524; T (-40) 9 m525; T 2 1 m526; T 2 1 m527; T 80 9 m528; T 2 1 m529; T (-40) 9 m531; T (-4) 1 m532; T 2 1 m534].
Definition p844 : pref := [T (-23) 54 m99; T (-74333) 14580 m100; T 64 81 m101; T (-1) 3 m102; T 2 9 m103; T 3124 729 m104; T (-64) 81 m105; T 4 9 m106; T (-5) 36 m107; T (-30322) 3645 m108; T 128 81 m109; T (-3448) 729 m110; T 64 81 m111; T (-4) 9 m112; T (-1) 12 m113; T 32509 7290 m114; T (-64) 81 m115; T 31537 3645 m116; T (-128) 81 m117; T 4 9 m118; T 79 108 m119; T 4 9 m120; T (-1) 9 m121; T (-64) 1215 m122; T (-8) 9 m123; T 8 9 m124; T 8 9 m125; T (-64) 1215 m126; T (-8) 9 m127; T 64 1215 m128; T 64 1215 m129; T 1 6 m263; T (-2) 3 m264; T 2 9 m265; T (-1) 6 m266; T (-2) 3 m267; T (-1) 18 m268; T 1 2 m269; T 2 3 m270; T (-8) 9 m299; T (-128) 243 m300; T 1 9 m301; T 8 9 m302; T 220 243 m303; T (-1) 9 m304; T (-92) 243 m305; T 44 9 m420; T 4 3 m421; T (-56) 9 m422; T (-4) 3 m423; T 4 3 m424; T (-1975) 486 m547; T (-1244) 243 m548; T 352 243 m549; T (-704) 243 m550; T (-704) 243 m551; T 352 243 m552; T 1651 243 m553; T 352 243 m554; T 1 6 m555; T 2081 486 m556; T 1 1 m557; T (-11) 18 m558; T (-4) 3 m559; T 1 3 m560; T 121 324 m804; T (-1) 9 m805; T (-121) 324 m806; T 1 9 m807; T 11 54 m881; T (-11) 54 m882].
Definition p845 : pref := [T 4 3 m130; T 4 3 m131; T (-8) 3 m132; T (-4) 3 m425; T 16 1 m426; T (-100) 3 m427; T 56 3 m428].
Definition p846 : pref := [T (-566) 243 m4; T 835 243 m5; T 4 9 m6; T (-44) 81 m20; T 88 81 m21; T 8 27 m23; T (-16) 27 m24; T (-377) 243 m95; T 8 27 m96; T 1 12 m294; T 5 81 m295; T 8 81 m297; T (-1) 12 m298; T (-13) 81 m306; T (-7) 6 m418; T 7 6 m419; T (-44) 81 m561; T 121 432 m627; T (-1) 12 m628; T (-121) 432 m808; T 1 12 m809; T 11 72 m879; T (-11) 72 m883].
Definition p847 : pref := [T (-121) 324 m143; T 1 9 m144; T (-1) 480 m607; T (-121) 324 m608; T 1 9 m609; T 121 162 m610; T (-2) 9 m611; T (-11) 54 m754; T (-11) 54 m755; T 11 27 m756].
Definition p848 : pref := [T 121 648 m157; T (-1) 18 m158; T (-121) 648 m612; T 1 18 m613; T 11 108 m757; T (-11) 108 m758].
Definition p849 : pref := [T (-121) 324 m614; T 1 9 m615; T 121 324 m616; T (-1) 9 m617; T (-11) 54 m759; T 11 54 m760].
Definition p850 : pref := [T (-121) 432 m157; T 1 12 m158; T 121 432 m618; T (-1) 12 m619; T (-11) 72 m757; T 11 72 m761].
Definition p851 : pref := [T 1 27 m4; T (-1) 27 m5; T 1 12 m161; T (-1) 12 m164; T (-1) 12 m310; T (-1) 27 m315; T 1 12 m316; T 1 27 m317; T (-1) 96 m627; T 1 96 m843].
Definition p852 : pref := [T (-1) 12 m294; T (-1) 27 m295; T 1 12 m298; T 1 27 m306].
Definition p853 : pref := [T 2 9 m294; T 8 81 m295; T 8 81 m297; T (-4) 9 m298; T (-16) 81 m306; T 2 9 m391].
Definition p854 : pref := [T 29 27 m392; T (-13) 27 m393; T (-2) 81 m594; T 2 81 m595; T (-8) 27 m601].
Definition p855 : pref := [T 1 9 m596; T 1 9 m602; T 1 9 m943; T (-2) 9 m944; T 1 9 m945; T (-2) 9 m946].
Definition p856 : pref := [T 4 81 m597; T 4 81 m598; T (-8) 81 m599; T 16 27 m603; T (-37) 27 m604; T (-5) 27 m947; T 26 27 m948].
Definition p857 : pref := [T (-11) 24 m949; T 3 32 m950; T 83 96 m951; T 1 8 m952; T (-17) 64 m953; T 1 16 m954; T (-1) 4 m955; T 3 32 m989; T (-1) 4 m1009; T (-7) 8 m1014; T 7 8 m1015; T 3 8 m1016; T (-5) 4 m1022; T 17 8 m1023; T (-7) 8 m1024; T 3 16 m1025; T 1 27 m1044; T (-1) 27 m1045].
Definition p858 : pref := [T 11 48 m956; T (-3) 64 m957; T (-11) 192 m958; T (-1) 16 m959; T (-7) 128 m960; T (-1) 32 m961; T 1 8 m962; T (-3) 64 m990; T (-1) 27 m1010; T 1 8 m1011; T 1 27 m1012; T 7 16 m1017; T (-3) 16 m1018; T (-3) 16 m1019; T 5 8 m1026; T (-9) 16 m1027; T 1 16 m1028; T (-3) 32 m1029].
Definition p859 : pref := [T (-1) 6 m963; T 1 4 m964; T (-5) 96 m965].
Definition p860 : pref := [T (-9) 64 m966; T (-3) 32 m991; T 1 8 m992; T 1 8 m1030; T (-3) 32 m1031].
Definition p861 : pref := [T (-9) 64 m967; T (-3) 32 m993; T 1 8 m994; T 1 8 m1032; T (-3) 32 m1033].
Definition p862 : pref := [T 1 8 m968; T (-7) 48 m969; T (-5) 128 m970; T 5 96 m971; T (-1) 96 m972; T (-1) 96 m973; T 1 64 m974; T 1 64 m975; T (-5) 1536 m976; T (-5) 1536 m977].
Definition p863 : pref := [T (-3) 64 m966; T 1 32 m995; T 1 8 m996; T (-1) 8 m997; T 4 1 m1034; T (-3) 1 m1035].
Definition p864 : pref := [T (-1) 6 m978; T 1 4 m979; T (-5) 96 m980; T 1 1 m981; T (-5) 3 m982; T 29 48 m983; T 9 64 m984; T 1 16 m998; T (-1) 4 m999; T (-3) 32 m1000; T 1 4 m1001; T 1 16 m1020; T (-8) 1 m1036; T 10 1 m1037; T (-3) 1 m1038].
Definition p865 : pref := [T (-3) 64 m967; T 1 32 m1002; T 1 8 m1003; T (-1) 8 m1004; T 1 8 m1039; T (-3) 32 m1040].
Definition p866 : pref := [T 9 64 m985; T 1 16 m1005; T (-1) 4 m1006; T (-3) 32 m1007; T 1 4 m1008; T 1 16 m1021; T 1 4 m1041; T (-5) 16 m1042; T 3 32 m1043].
Definition p867 : pref := [T 3 32 m986].
Definition p868 : pref := [T 5 96 m987].
Definition p869 : pref := [T 1 12 m966; T (-1) 12 m988].
Definition p870 : pref := [T 1 24 m966; T (-1) 12 m988].
Definition p871 : pref := [T 7 48 m966; T (-1) 12 m988].
Definition p872 : pref := [T (-1) 6 m1013].
Definition p873 : pref := [T (-5) 96 m1046; T 1 12 m1047; T (-5) 48 m1075; T 1 6 m1076].
Definition p874 : pref := [T 3 32 m1048; T 7 288 m1049; T 1 8 m1050; T 1 18 m1051; T 35 576 m1052; T 1 16 m1053; T (-1) 4 m1054; T 3 32 m1068; T (-1) 4 m1071; T (-1) 48 m1072; T 3 8 m1073; T 5 36 m1077; T (-1) 9 m1078; T (-1) 36 m1079; T 3 16 m1080].
Definition p875 : pref := [T (-1) 48 m1055; T (-1) 6 m1056; T (-1) 4 m1074; T 5 24 m1081; T (-1) 3 m1082].
Definition p876 : pref := [T 35 432 m1057; T 2 27 m1058; T (-5) 54 m1059].
Definition p877 : pref := [T (-17) 864 m1060; T 1 27 m1061].
Definition p878 : pref := [T 3 16 m1060; T 1 8 m1069].
Definition p879 : pref := [T 3 16 m1062; T 1 8 m1070].
Definition p880 : pref := [T 2 27 m1063; T (-5) 108 m1064].
Definition p881 : pref := [T 1 18 m1060; T (-1) 18 m1065].
Definition p882 : pref := [T 1 72 m1060; T (-1) 18 m1065].
Definition p883 : pref := [T 5 72 m1060; T 1 18 m1065].
Definition p884 : pref := [T 1 16 m1066].
Definition p885 : pref := [T (-1) 32 m1067].
Definition p886 : pref := [T (-1) 4 m949; T 3 32 m950; T 15 32 m951; T 1 8 m952; T (-5) 64 m953; T 1 16 m954; T (-1) 4 m955; T 3 32 m989; T (-1) 4 m1009; T (-7) 8 m1014; T 7 8 m1015; T 3 8 m1016; T (-5) 9 m1022; T 31 36 m1023; T (-11) 36 m1024; T 3 16 m1025; T 1 27 m1044; T (-1) 27 m1045].
Definition p887 : pref := [T (-1) 8 m956; T 3 64 m957; T 23 576 m958; T 1 16 m959; T 35 1152 m960; T 1 32 m961; T (-1) 8 m962; T 3 64 m990; T 1 27 m1010; T (-1) 8 m1011; T (-1) 27 m1012; T (-7) 16 m1017; T 13 48 m1018; T 3 16 m1019; T (-5) 18 m1026; T 5 24 m1027; T (-1) 72 m1028; T 3 32 m1029].
Definition p888 : pref := [T 4 81 m963; T (-5) 81 m964; T (-103) 2592 m965].
Definition p889 : pref := [T 5 64 m966; T (-1) 12 m1030; T 5 96 m1031; T 5 1 m1086; T (-8) 1 m1087].
Definition p890 : pref := [T 5 64 m967; T 1 12 m1039; T (-5) 96 m1040; T (-5) 96 m1088; T 1 12 m1089].
Definition p891 : pref := [T (-1) 27 m968; T 13 324 m969; T 239 10368 m970; T (-17) 1296 m971; T 1 324 m972; T 1 324 m973; T (-5) 1296 m974; T (-5) 1296 m975; T (-103) 41472 m976; T (-103) 41472 m977].
Definition p892 : pref := [T 3 64 m966; T 1 12 m1030; T (-5) 96 m1031; T 1 32 m1090; T 1 12 m1091; T (-1) 12 m1092].
Definition p893 : pref := [T 4 81 m978; T (-5) 81 m979; T (-103) 2592 m980; T (-8) 27 m981; T 4 9 m982; T (-23) 216 m983; T (-5) 64 m984; T (-1) 16 m1020; T 1 48 m1093; T (-1) 6 m1094; T (-5) 96 m1095; T 1 6 m1096; T 16 1 m1102; T (-18) 1 m1103; T 5 1 m1104].
Definition p894 : pref := [T 3 64 m967; T 1 32 m993; T 1 12 m994; T (-1) 12 m1097; T (-1) 12 m1105; T 5 96 m1106].
Definition p895 : pref := [T (-5) 64 m985; T (-1) 16 m1021; T (-1) 16 m1083; T 1 48 m1098; T (-1) 6 m1099; T (-5) 96 m1100; T 1 6 m1101; T 1 6 m1107; T (-3) 16 m1108; T 5 96 m1109].
Definition p896 : pref := [T (-3) 32 m986].
Definition p897 : pref := [T (-5) 96 m987].
Definition p898 : pref := [T 1 27 m966; T (-1) 27 m988].
Definition p899 : pref := [T 1 108 m966; T (-1) 27 m988].
Definition p900 : pref := [T (-61) 432 m966; T 1 27 m988].
Definition p901 : pref := [T 1 16 m966].
Definition p902 : pref := [T 1 24 m1084].
Definition p903 : pref := [T 1 24 m1085].
Definition p904 : pref := [T (-1) 162 m963; T 1 324 m964; T 197 2592 m965].
Definition p905 : pref := [T (-1) 64 m966; T 1 96 m1155; T (-1) 24 m1156; T (-1) 24 m1231; T 1 96 m1232].
Definition p906 : pref := [T (-1) 64 m967; T (-1) 96 m993; T 1 24 m994; T (-1) 24 m1105; T 1 96 m1106].
Definition p907 : pref := [T 1 216 m968; T (-5) 1296 m969; T (-217) 10368 m970; T 5 2592 m971; T (-1) 2592 m972; T (-1) 2592 m973; T 1 5184 m974; T 1 5184 m975; T 197 41472 m976; T 197 41472 m977].
Definition p908 : pref := [T (-3) 64 m966; T (-1) 24 m1030; T 1 96 m1031; T (-1) 32 m1090; T (-1) 24 m1091; T 1 24 m1092].
Definition p909 : pref := [T (-1) 162 m978; T 1 324 m979; T 197 2592 m980; T 1 27 m981; T (-1) 27 m982; T (-1) 48 m983; T 1 64 m984; T 1 16 m1020; T (-1) 48 m1157; T (-1) 12 m1158; T (-1) 96 m1159; T 1 12 m1160; T 1 12 m1233; T (-1) 16 m1234; T 1 96 m1235].
Definition p910 : pref := [T (-3) 64 m967; T (-1) 32 m993; T (-1) 24 m994; T 1 24 m1097; T (-1) 24 m1236; T 1 96 m1237].
Definition p911 : pref := [T 1 64 m985; T 1 16 m1021; T 1 12 m1041; T (-1) 16 m1042; T 1 96 m1043; T 1 8 m1083; T 1 48 m1098; T 1 12 m1099; T 1 96 m1100; T (-1) 12 m1101].
Definition p912 : pref := [T 1 108 m966; T (-1) 108 m988].
Definition p913 : pref := [T (-1) 8 m949; T 3 32 m950; T 23 96 m951; T 1 8 m952; T 5 192 m953; T 1 16 m954; T (-1) 4 m955; T 3 32 m989; T (-1) 4 m1009; T (-7) 8 m1014; T 7 8 m1015; T 3 8 m1016; T (-5) 36 m1022; T 11 72 m1023; T (-1) 72 m1024; T 3 16 m1025; T 1 27 m1044; T (-1) 27 m1045].
Definition p914 : pref := [T 1 16 m956; T (-3) 64 m957; T (-29) 576 m958; T (-1) 16 m959; T (-23) 1152 m960; T (-1) 32 m961; T 1 8 m962; T (-3) 64 m990; T (-1) 27 m1010; T 1 8 m1011; T 1 27 m1012; T 7 16 m1017; T (-17) 48 m1018; T (-3) 16 m1019; T 5 72 m1026; T (-1) 48 m1027; T (-1) 144 m1028; T (-3) 32 m1029].
Definition p915 : pref := [T 5 64 m1110; T (-11) 64 m1111; T 3 32 m1161; T (-3) 16 m1162; T 3 32 m1198].
Definition p916 : pref := [T 11 128 m1112; T (-25) 48 m1113; T 119 384 m1114; T 5 64 m1163; T (-101) 192 m1164; T 13 32 m1165; T (-1) 12 m1166; T 7 24 m1199; T (-11) 64 m1200; T 1 192 m1201].
Definition p917 : pref := [T 7 192 m1115; T 7 192 m1116; T (-1) 24 m1117; T 3 32 m1167; T (-1) 16 m1168; T (-3) 32 m1202; T 1 16 m1203].
Definition p918 : pref := [T (-1) 24 m1118; T (-5) 192 m1119; T 7 192 m1120; T (-3) 32 m1171; T 1 16 m1172; T 3 32 m1204; T (-1) 16 m1205].
Definition p919 : pref := [T (-1) 96 m1121; T (-5) 768 m1122; T 7 768 m1123; T 1 384 m1124; T 1 384 m1125; T 5 3072 m1126; T 5 3072 m1127; T (-7) 3072 m1128; T (-7) 3072 m1129; T (-3) 128 m1173; T 1 64 m1174; T 3 512 m1175; T 3 512 m1176; T (-1) 256 m1177; T (-1) 256 m1178; T 3 128 m1206; T (-1) 64 m1207; T (-3) 512 m1208; T (-3) 512 m1209; T 1 256 m1210; T 1 256 m1211].
Definition p920 : pref := [T (-1) 24 m1130; T (-5) 192 m1131; T 7 192 m1132; T 1 12 m1133; T (-7) 96 m1134; T 5 96 m1135; T (-3) 32 m1179; T 1 16 m1180; T 1 16 m1181; T (-1) 16 m1182; T 1 16 m1183; T 3 32 m1212; T (-1) 16 m1213; T (-1) 16 m1214; T 1 16 m1215; T (-1) 16 m1216].
Definition p921 : pref := [T (-1) 8 m1136; T 1 16 m1184; T (-3) 16 m1185; T (-1) 16 m1217; T 3 16 m1218].
Definition p922 : pref := [T (-3) 32 m1137; T (-3) 32 m1138; T (-3) 16 m1186; T 3 16 m1219].
Definition p923 : pref := [T (-3) 32 m1139; T (-3) 32 m1140; T (-3) 16 m1187; T 3 16 m1220].
Definition p924 : pref := [T (-1) 216 m966; T (-1) 108 m988].
Definition p925 : pref := [T 67 432 m966; T (-1) 108 m988].
Definition p926 : pref := [T (-1) 16 m1141; T (-1) 16 m1142; T (-1) 8 m1188; T 1 8 m1221].
Definition p927 : pref := [T (-1) 32 m1143; T (-1) 32 m1144; T (-1) 16 m1189; T 1 16 m1222].
Definition p928 : pref := [T (-1) 24 m1145; T (-5) 192 m1146; T 7 192 m1147; T (-3) 32 m1190; T 1 16 m1191; T 3 32 m1223; T (-1) 16 m1224].
Definition p929 : pref := [T 1 32 m1148; T 1 32 m1149; T 1 16 m1192; T (-1) 8 m1225; T 1 16 m1226].
Definition p930 : pref := [T (-1) 64 m1150; T 21 64 m1151; T (-67) 192 m1152; T 19 192 m1153; T (-1) 32 m1193; T 3 16 m1194; T 1 32 m1195; T (-5) 24 m1196; T 1 12 m1197; T (-1) 16 m1227; T (-7) 32 m1228; T 1 3 m1229; T (-11) 96 m1230].
Definition p931 : pref := [T (-1) 16 m1154].
Definition p932 : pref := [T (-1) 32 m1150; T 17 96 m1151; T (-1) 24 m1152; T (-1) 24 m1153; T 3 16 m1195; T (-1) 8 m1196; T (-3) 16 m1228; T 1 8 m1229].
Definition p933 : pref := [T 1 48 m1169].
Definition p934 : pref := [T 1 48 m1170].
Definition p935 : pref := [T (-1) 16 m966].
Definition p936 : pref := [T 23 432 m1057; T 1 54 m1058; T (-1) 108 m1059].
Definition p937 : pref := [T (-5) 864 m1060; T 1 108 m1061].
Definition p938 : pref := [T 1 54 m1063; T (-1) 216 m1064].
Definition p939 : pref := [T (-1) 36 m1060; T 1 36 m1065].
Definition p940 : pref := [T 1 96 m1046; T (-1) 24 m1047; T 1 48 m1075; T (-1) 12 m1076].
Definition p941 : pref := [T 3 32 m1048; T 25 288 m1049; T 1 8 m1050; T 1 72 m1051; T 23 576 m1052; T 1 16 m1053; T (-1) 4 m1054; T 3 32 m1068; T (-1) 4 m1071; T (-1) 48 m1072; T 3 8 m1073; T 1 72 m1077; T (-1) 36 m1078; T 1 72 m1079; T 3 16 m1080].
Definition p942 : pref := [T (-5) 48 m1055; T (-1) 12 m1056; T (-1) 4 m1074; T 1 24 m1081; T (-1) 6 m1082].
Definition p943 : pref := [T 5 64 m1238; T (-11) 64 m1239; T 3 32 m1258; T (-3) 16 m1259; T 3 32 m1272].
Definition p944 : pref := [T 1 16 m1240; T 5 16 m1241; T (-1) 4 m1260; T 3 4 m1261; T (-1) 8 m1262; T 1 4 m1273; T (-3) 4 m1274; T 1 8 m1275].
Definition p945 : pref := [T (-1) 64 m1242; T (-1) 64 m1243; T (-1) 16 m1244; T (-3) 32 m1263; T 3 32 m1276].
Definition p946 : pref := [T (-1) 64 m1245; T 5 64 m1246; T 1 32 m1247; T 3 32 m1266; T (-3) 32 m1277].
Definition p947 : pref := [T 1 72 m1060; T 1 36 m1065].
Definition p948 : pref := [T 7 72 m1060; T 1 36 m1065].
Definition p949 : pref := [T (-1) 16 m1248; T (-1) 16 m1249; T (-1) 8 m1267; T 1 8 m1278].
Definition p950 : pref := [T (-1) 64 m1250; T 5 64 m1251; T 1 32 m1252; T 3 32 m1268; T (-3) 32 m1279].
Definition p951 : pref := [T 1 32 m1253; T 1 32 m1254; T 1 16 m1269; T (-1) 8 m1280; T 1 16 m1281].
Definition p952 : pref := [T 3 32 m1255; T (-13) 32 m1256; T 1 8 m1257; T (-5) 16 m1270; T 1 8 m1271; T 5 16 m1282; T (-1) 8 m1283].
Definition p953 : pref := [T (-1) 16 m640].
Definition p954 : pref := [T 1 32 m1255; T (-5) 32 m1256; T (-1) 16 m1257; T (-3) 16 m1270; T 3 16 m1282].
Definition p955 : pref := [T 1 32 m1264].
Definition p956 : pref := [T (-1) 64 m1265].
(* tensors *)
Definition t0 : tensor := ("TT,TT", [(OC "uG"); Okt]).
Definition t1 : tensor := ("TT,TT", [(OC "uGDag"); Okt]).
Definition t2 : tensor := ("prst", [(OC "qqql")]).
Definition t3 : tensor := ("psrt", [(OC "qqql")]).
Definition t4 : tensor := ("rpst", [(OC "qqql")]).
Definition t5 : tensor := ("rspt", [(OC "qqql")]).
Definition t6 : tensor := ("sprt", [(OC "qqql")]).
Definition t7 : tensor := ("srpt", [(OC "qqql")]).
Definition t8 : tensor := ("rsTt,pT,TT", [(OC "qqql"); Okd; Okt]).
Definition t9 : tensor := ("rTst,pT,TT", [(OC "qqql"); Okd; Okt]).
Definition t10 : tensor := ("srTt,pT,TT", [(OC "qqql"); Okd; Okt]).
Definition t11 : tensor := ("sTrt,pT,TT", [(OC "qqql"); Okd; Okt]).
Definition t12 : tensor := ("Trst,pT,TT", [(OC "qqql"); Okd; Okt]).
Definition t13 : tensor := ("Tsrt,pT,TT", [(OC "qqql"); Okd; Okt]).
Definition t14 : tensor := ("rpTt,sT,TT", [(OC "qqql"); Okd; Okt]).
Definition t15 : tensor := ("rTpt,sT,TT", [(OC "qqql"); Okd; Okt]).
Definition t16 : tensor := ("sTpt,rT,TT", [(OC "qqql"); Okd; Okt]).
Definition t17 : tensor := ("Tpst,rT,TT", [(OC "qqql"); Okd; Okt]).
Definition t18 : tensor := ("Trpt,sT,TT", [(OC "qqql"); Okd; Okt]).
Definition t19 : tensor := ("Tspt,rT,TT", [(OC "qqql"); Okd; Okt]).
Definition t20 : tensor := ("prTt,sT,TT", [(OC "qqql"); Okd; Okt]).
Definition t21 : tensor := ("psTt,rT,TT", [(OC "qqql"); Okd; Okt]).
Definition t22 : tensor := ("pTrt,sT,TT", [(OC "qqql"); Okd; Okt]).
Definition t23 : tensor := ("pTst,rT,TT", [(OC "qqql"); Okd; Okt]).
Definition t24 : tensor := ("spTt,rT,TT", [(OC "qqql"); Okd; Okt]).
Definition t25 : tensor := ("Tprt,sT,TT", [(OC "qqql"); Okd; Okt]).
Definition t26 : tensor := ("prst", [(OC "qque")]).
Definition t27 : tensor := ("rpst", [(OC "qque")]).
Definition t28 : tensor := ("rTst,pT,TT", [(OC "qque"); Okd; Okt]).
Definition t29 : tensor := ("Trst,pT,TT", [(OC "qque"); Okd; Okt]).
Definition t30 : tensor := ("prst", [(OC "duql")]).
Definition t31 : tensor := ("prTt,sT,TT", [(OC "duql"); Okd; Okt]).
Definition t32 : tensor := ("prst", [(OC "duue")]).
Definition t33 : tensor := ("psrt", [(OC "duue")]).
Definition t34 : tensor := ("prst", [(OC "qq1")]).
Definition t35 : tensor := ("prst", [(OC "qq3")]).
Definition t36 : tensor := ("ptsr", [(OC "qq1")]).
Definition t37 : tensor := ("ptsr", [(OC "qq3")]).
Definition t38 : tensor := ("srpt", [(OC "qq1")]).
Definition t39 : tensor := ("srpt", [(OC "qq3")]).
Definition t40 : tensor := ("stpr", [(OC "qq1")]).
Definition t41 : tensor := ("stpr", [(OC "qq3")]).
Definition t42 : tensor := ("pr,st", [Okd; Okd]).
Definition t43 : tensor := ("pr,st", [(OC "phiq1"); Okd]).
Definition t44 : tensor := ("pr,st", [(OC "phiq3"); Okd]).
Definition t45 : tensor := ("pt,sr", [Okd; Okd]).
Definition t46 : tensor := ("pt,sr", [(OC "phiq3"); Okd]).
Definition t47 : tensor := ("sr,pt", [(OC "phiq3"); Okd]).
Definition t48 : tensor := ("st,pr", [(OC "phiq1"); Okd]).
Definition t49 : tensor := ("st,pr", [(OC "phiq3"); Okd]).
Definition t50 : tensor := ("prsT,tT,TT", [(OC "qq1"); Okd; Okt]).
Definition t51 : tensor := ("prsT,tT,TT", [(OC "qq3"); Okd; Okt]).
Definition t52 : tensor := ("prTt,sT,TT", [(OC "qq1"); Okd; Okt]).
Definition t53 : tensor := ("prTt,sT,TT", [(OC "qq3"); Okd; Okt]).
Definition t54 : tensor := ("pTsr,tT,TT", [(OC "qq3"); Okd; Okt]).
Definition t55 : tensor := ("ptTr,sT,TT", [(OC "qq3"); Okd; Okt]).
Definition t56 : tensor := ("pTTr,st,TT", [(OC "qq1"); Okd; Okt]).
Definition t57 : tensor := ("pTTr,st,TT", [(OC "qq3"); Okd; Okt]).
Definition t58 : tensor := ("ptTT,sr,TT", [(OC "qq3"); Okd; Okt]).
Definition t59 : tensor := ("pTTt,sr,TT", [(OC "qq1"); Okd; Okt]).
Definition t60 : tensor := ("pTTt,sr,TT", [(OC "qq3"); Okd; Okt]).
Definition t61 : tensor := ("srpT,tT,TT", [(OC "qq3"); Okd; Okt]).
Definition t62 : tensor := ("srTT,pt,TT", [(OC "qq3"); Okd; Okt]).
Definition t63 : tensor := ("sTpr,tT,TT", [(OC "qq1"); Okd; Okt]).
Definition t64 : tensor := ("sTpr,tT,TT", [(OC "qq3"); Okd; Okt]).
Definition t65 : tensor := ("sTTr,pt,TT", [(OC "qq1"); Okd; Okt]).
Definition t66 : tensor := ("sTTr,pt,TT", [(OC "qq3"); Okd; Okt]).
Definition t67 : tensor := ("sTTt,pr,TT", [(OC "qq3"); Okd; Okt]).
Definition t68 : tensor := ("Trpt,sT,TT", [(OC "qq3"); Okd; Okt]).
Definition t69 : tensor := ("TrpT,st,TT", [(OC "qq1"); Okd; Okt]).
Definition t70 : tensor := ("TrpT,st,TT", [(OC "qq3"); Okd; Okt]).
Definition t71 : tensor := ("TrsT,pt,TT", [(OC "qq1"); Okd; Okt]).
Definition t72 : tensor := ("TrsT,pt,TT", [(OC "qq3"); Okd; Okt]).
Definition t73 : tensor := ("Ttpr,sT,TT", [(OC "qq1"); Okd; Okt]).
Definition t74 : tensor := ("Ttpr,sT,TT", [(OC "qq3"); Okd; Okt]).
Definition t75 : tensor := ("TtpT,sr,TT", [(OC "qq1"); Okd; Okt]).
Definition t76 : tensor := ("TtpT,sr,TT", [(OC "qq3"); Okd; Okt]).
Definition t77 : tensor := ("TTpt,sr,TT", [(OC "qq3"); Okd; Okt]).
Definition t78 : tensor := ("TTsr,pt,TT", [(OC "qq3"); Okd; Okt]).
Definition t79 : tensor := ("TtsT,pr,TT", [(OC "qq3"); Okd; Okt]).
Definition t80 : tensor := ("pr,sT,tT,TT", [Okd; Okd; Okd; Okt]).
Definition t81 : tensor := ("pr,sT,tT,TT", [(OC "phiq1"); Okd; Okd; Okt]).
Definition t82 : tensor := ("pr,sT,tT,TT", [(OC "phiq3"); Okd; Okd; Okt]).
Definition t83 : tensor := ("prTT,sT,tT,TT", [(OC "qq1"); Okd; Okd; Okt]).
Definition t84 : tensor := ("prTT,sT,tT,TT", [(OC "qq3"); Okd; Okd; Okt]).
Definition t85 : tensor := ("prTT,sT,tT,TT", [(OC "qu1"); Okd; Okd; Okt]).
Definition t86 : tensor := ("pT,sr,tT,TT", [(OC "phiq1"); Okd; Okd; Okt]).
Definition t87 : tensor := ("pT,sr,tT,TT", [(OC "phiq3"); Okd; Okd; Okt]).
Definition t88 : tensor := ("pT,sr,tT,TT", [(OC "uB"); Okd; Okd; Okt]).
Definition t89 : tensor := ("pT,sr,tT,TT", [(OC "uG"); Okd; Okd; Okt]).
Definition t90 : tensor := ("pT,sr,tT,TT", [(OC "uphi"); Okd; Okd; Okt]).
Definition t91 : tensor := ("pT,sr,tT,TT", [(OC "uW"); Okd; Okd; Okt]).
Definition t92 : tensor := ("pTTr,sT,tT,TT", [(OC "qq1"); Okd; Okd; Okt]).
Definition t93 : tensor := ("pTTr,sT,tT,TT", [(OC "qq3"); Okd; Okd; Okt]).
Definition t94 : tensor := ("pTTT,sr,tT,TT", [(OC "qu1"); Okd; Okd; Okt]).
Definition t95 : tensor := ("pTTT,sr,tT,TT", [(OC "qu8"); Okd; Okd; Okt]).
Definition t96 : tensor := ("sT,pr,tT,TT", [(OC "phiq1"); Okd; Okd; Okt]).
Definition t97 : tensor := ("sT,pr,tT,TT", [(OC "phiq3"); Okd; Okd; Okt]).
Definition t98 : tensor := ("sT,pr,tT,TT", [(OC "uW"); Okd; Okd; Okt]).
Definition t99 : tensor := ("Tr,pt,sT,TT", [(OC "phiq1"); Okd; Okd; Okt]).
Definition t100 : tensor := ("Tr,pt,sT,TT", [(OC "phiq3"); Okd; Okd; Okt]).
Definition t101 : tensor := ("Tr,pt,sT,TT", [(OC "uBDag"); Okd; Okd; Okt]).
Definition t102 : tensor := ("Tr,pt,sT,TT", [(OC "uGDag"); Okd; Okd; Okt]).
Definition t103 : tensor := ("Tr,pt,sT,TT", [(OC "uphiDag"); Okd; Okd; Okt]).
Definition t104 : tensor := ("Tr,pt,sT,TT", [(OC "uWDag"); Okd; Okd; Okt]).
Definition t105 : tensor := ("TrpT,sT,tT,TT", [(OC "qq1"); Okd; Okd; Okt]).
Definition t106 : tensor := ("TrpT,sT,tT,TT", [(OC "qq3"); Okd; Okd; Okt]).
Definition t107 : tensor := ("TrTT,pt,sT,TT", [(OC "qu1"); Okd; Okd; Okt]).
Definition t108 : tensor := ("TrTT,pt,sT,TT", [(OC "qu8"); Okd; Okd; Okt]).
Definition t109 : tensor := ("Tt,pr,sT,TT", [(OC "phiq1"); Okd; Okd; Okt]).
Definition t110 : tensor := ("Tt,pr,sT,TT", [(OC "phiq3"); Okd; Okd; Okt]).
Definition t111 : tensor := ("Tt,pr,sT,TT", [(OC "uWDag"); Okd; Okd; Okt]).
Definition t112 : tensor := ("TT,pr,st,TT", [(OC "uphi"); Okd; Okd; Okt]).
Definition t113 : tensor := ("TT,pr,st,TT", [(OC "uphiDag"); Okd; Okd; Okt]).
Definition t114 : tensor := ("TTpr,sT,tT,TT", [(OC "qq1"); Okd; Okd; Okt]).
Definition t115 : tensor := ("TTpr,sT,tT,TT", [(OC "qq3"); Okd; Okd; Okt]).
Definition t116 : tensor := ("TT,pt,sr,TT", [(OC "phiq3"); Okd; Okd; Okt]).
Definition t117 : tensor := ("TT,pt,sr,TT", [(OC "uphi"); Okd; Okd; Okt]).
Definition t118 : tensor := ("TT,pt,sr,TT", [(OC "uphiDag"); Okd; Okd; Okt]).
Definition t119 : tensor := ("pr,sT,tT,TT,TT", [Okd; Okd; Okd; (OC "phiq1"); Okt]).
Definition t120 : tensor := ("pr,sT,tT,TT,TT", [Okd; Okd; Okd; (OC "phiq3"); Okt]).
Definition t121 : tensor := ("pr,sT,tT,TT,TT", [Okd; Okd; Okd; (OC "phiu"); Okt]).
Definition t122 : tensor := ("pr,sT,tT,TT,TT", [Okd; Okd; Okd; (OC "uB"); Okt]).
Definition t123 : tensor := ("pr,sT,tT,TT,TT", [Okd; Okd; Okd; (OC "uBDag"); Okt]).
Definition t124 : tensor := ("pr,sT,tT,TT,TT", [Okd; Okd; Okd; (OC "uW"); Okt]).
Definition t125 : tensor := ("pr,sT,tT,TT,TT", [Okd; Okd; Okd; (OC "uWDag"); Okt]).
Definition t126 : tensor := ("prTT,st,TT", [(OC "qq1"); Okd; Okt]).
Definition t127 : tensor := ("prTT,st,TT", [(OC "qq3"); Okd; Okt]).
Definition t128 : tensor := ("prTT,st,TT", [(OC "qu1"); Okd; Okt]).
Definition t129 : tensor := ("pTsr,tT,TT", [(OC "qq1"); Okd; Okt]).
Definition t130 : tensor := ("ptTr,sT,TT", [(OC "qq1"); Okd; Okt]).
Definition t131 : tensor := ("srpT,tT,TT", [(OC "qq1"); Okd; Okt]).
Definition t132 : tensor := ("stTT,pr,TT", [(OC "qq1"); Okd; Okt]).
Definition t133 : tensor := ("stTT,pr,TT", [(OC "qq3"); Okd; Okt]).
Definition t134 : tensor := ("stTT,pr,TT", [(OC "qu1"); Okd; Okt]).
Definition t135 : tensor := ("Trpt,sT,TT", [(OC "qq1"); Okd; Okt]).
Definition t136 : tensor := ("TTpr,st,TT", [(OC "qq1"); Okd; Okt]).
Definition t137 : tensor := ("TTpr,st,TT", [(OC "qq3"); Okd; Okt]).
Definition t138 : tensor := ("TTst,pr,TT", [(OC "qq1"); Okd; Okt]).
Definition t139 : tensor := ("TTst,pr,TT", [(OC "qq3"); Okd; Okt]).
Definition t140 : tensor := ("sT,pr,tT,TT", [(OC "uB"); Okd; Okd; Okt]).
Definition t141 : tensor := ("Tt,pr,sT,TT", [(OC "uBDag"); Okd; Okd; Okt]).
Definition t142 : tensor := ("TT,pr,st,TT", [(OC "phiq1"); Okd; Okd; Okt]).
Definition t143 : tensor := ("TT,pr,st,TT", [(OC "phiq3"); Okd; Okd; Okt]).
Definition t144 : tensor := ("TT,pr,st,TT", [(OC "phiu"); Okd; Okd; Okt]).
Definition t145 : tensor := ("TT,pr,st,TT", [(OC "uB"); Okd; Okd; Okt]).
Definition t146 : tensor := ("TT,pr,st,TT", [(OC "uBDag"); Okd; Okd; Okt]).
Definition t147 : tensor := ("TT,pr,st,TT", [(OC "uW"); Okd; Okd; Okt]).
Definition t148 : tensor := ("TT,pr,st,TT", [(OC "uWDag"); Okd; Okd; Okt]).
Definition t149 : tensor := ("pt,sr", [(OC "phiq1"); Okd]).
Definition t150 : tensor := ("sr,pt", [(OC "phiq1"); Okd]).
Definition t151 : tensor := ("prTT,sT,tT,TT", [(OC "qu8"); Okd; Okd; Okt]).
Definition t152 : tensor := ("TT,pr,st,TT", [(OC "uG"); Okd; Okd; Okt]).
Definition t153 : tensor := ("TT,pr,st,TT", [(OC "uGDag"); Okd; Okd; Okt]).
Definition t154 : tensor := ("pr,sT,tT,TT,TT", [Okd; Okd; Okd; (OC "uG"); Okt]).
Definition t155 : tensor := ("pr,sT,tT,TT,TT", [Okd; Okd; Okd; (OC "uGDag"); Okt]).
Definition t156 : tensor := ("prTT,st,TT", [(OC "qu8"); Okd; Okt]).
Definition t157 : tensor := ("stTT,pr,TT", [(OC "qu8"); Okd; Okt]).
Definition t158 : tensor := ("sT,pr,tT,TT", [(OC "uG"); Okd; Okd; Okt]).
Definition t159 : tensor := ("Tt,pr,sT,TT", [(OC "uGDag"); Okd; Okd; Okt]).
Definition t160 : tensor := ("pTst,rT,TT", [(OC "qq1"); Okd; Okt]).
Definition t161 : tensor := ("pTst,rT,TT", [(OC "qq3"); Okd; Okt]).
Definition t162 : tensor := ("stpT,rT,TT", [(OC "qq1"); Okd; Okt]).
Definition t163 : tensor := ("stpT,rT,TT", [(OC "qq3"); Okd; Okt]).
Definition t164 : tensor := ("stTr,pT,TT", [(OC "qq1"); Okd; Okt]).
Definition t165 : tensor := ("stTr,pT,TT", [(OC "qq3"); Okd; Okt]).
Definition t166 : tensor := ("Trst,pT,TT", [(OC "qq1"); Okd; Okt]).
Definition t167 : tensor := ("Trst,pT,TT", [(OC "qq3"); Okd; Okt]).
Definition t168 : tensor := ("pt,rT,sT,TT", [Okd; Okd; Okd; Okt]).
Definition t169 : tensor := ("pT,st,rT,TT", [(OC "phiq1"); Okd; Okd; Okt]).
Definition t170 : tensor := ("pT,st,rT,TT", [(OC "phiq3"); Okd; Okd; Okt]).
Definition t171 : tensor := ("pT,st,rT,TT", [(OC "uW"); Okd; Okd; Okt]).
Definition t172 : tensor := ("ptTT,rT,sT,TT", [(OC "qu8"); Okd; Okd; Okt]).
Definition t173 : tensor := ("pTTt,rT,sT,TT", [(OC "qq3"); Okd; Okd; Okt]).
Definition t174 : tensor := ("sr,pT,tT,TT", [Okd; Okd; Okd; Okt]).
Definition t175 : tensor := ("srTT,pT,tT,TT", [(OC "qu8"); Okd; Okd; Okt]).
Definition t176 : tensor := ("st,pT,rT,TT", [Okd; Okd; Okd; Okt]).
Definition t177 : tensor := ("st,pT,rT,TT", [(OC "phiq1"); Okd; Okd; Okt]).
Definition t178 : tensor := ("st,pT,rT,TT", [(OC "phiq3"); Okd; Okd; Okt]).
Definition t179 : tensor := ("sT,pt,rT,TT", [(OC "phiq3"); Okd; Okd; Okt]).
Definition t180 : tensor := ("sT,pt,rT,TT", [(OC "uW"); Okd; Okd; Okt]).
Definition t181 : tensor := ("sTTr,pT,tT,TT", [(OC "qq3"); Okd; Okd; Okt]).
Definition t182 : tensor := ("stTT,pT,rT,TT", [(OC "qq1"); Okd; Okd; Okt]).
Definition t183 : tensor := ("stTT,pT,rT,TT", [(OC "qq3"); Okd; Okd; Okt]).
Definition t184 : tensor := ("stTT,pT,rT,TT", [(OC "qu1"); Okd; Okd; Okt]).
Definition t185 : tensor := ("stTT,pT,rT,TT", [(OC "qu8"); Okd; Okd; Okt]).
Definition t186 : tensor := ("Tr,st,pT,TT", [(OC "phiq1"); Okd; Okd; Okt]).
Definition t187 : tensor := ("Tr,st,pT,TT", [(OC "phiq3"); Okd; Okd; Okt]).
Definition t188 : tensor := ("Tr,st,pT,TT", [(OC "uWDag"); Okd; Okd; Okt]).
Definition t189 : tensor := ("TrsT,pT,tT,TT", [(OC "qq3"); Okd; Okd; Okt]).
Definition t190 : tensor := ("TtpT,rT,sT,TT", [(OC "qq3"); Okd; Okd; Okt]).
Definition t191 : tensor := ("TT,pt,sr,TT", [(OC "uG"); Okd; Okd; Okt]).
Definition t192 : tensor := ("TT,pt,sr,TT", [(OC "uGDag"); Okd; Okd; Okt]).
Definition t193 : tensor := ("Tt,sr,pT,TT", [(OC "phiq3"); Okd; Okd; Okt]).
Definition t194 : tensor := ("Tt,sr,pT,TT", [(OC "uWDag"); Okd; Okd; Okt]).
Definition t195 : tensor := ("TTst,pT,rT,TT", [(OC "qq1"); Okd; Okd; Okt]).
Definition t196 : tensor := ("TTst,pT,rT,TT", [(OC "qq3"); Okd; Okd; Okt]).
Definition t197 : tensor := ("pt,rT,sT,TT,TT", [Okd; Okd; Okd; (OC "uG"); Okt]).
Definition t198 : tensor := ("pt,rT,sT,TT,TT", [Okd; Okd; Okd; (OC "uGDag"); Okt]).
Definition t199 : tensor := ("pT,rT,sT,Tt,TT", [Okd; Okd; Okd; (OC "phiq3"); Okt]).
Definition t200 : tensor := ("pT,rT,sT,Tt,TT", [Okd; Okd; Okd; (OC "uWDag"); Okt]).
Definition t201 : tensor := ("pT,rT,tT,sT,TT", [Okd; Okd; Okd; (OC "phiq3"); Okt]).
Definition t202 : tensor := ("pT,rT,tT,sT,TT", [Okd; Okd; Okd; (OC "uW"); Okt]).
Definition t203 : tensor := ("pT,sT,tT,Tr,TT", [Okd; Okd; Okd; (OC "phiq3"); Okt]).
Definition t204 : tensor := ("pT,sT,tT,Tr,TT", [Okd; Okd; Okd; (OC "uWDag"); Okt]).
Definition t205 : tensor := ("rT,sT,tT,pT,TT", [Okd; Okd; Okd; Okd; Okt]).
Definition t206 : tensor := ("rT,sT,tT,pT,TT", [Okd; Okd; Okd; (OC "phiq3"); Okt]).
Definition t207 : tensor := ("rT,sT,tT,pT,TT", [Okd; Okd; Okd; (OC "uW"); Okt]).
Definition t208 : tensor := ("sr,pT,tT,TT,TT", [Okd; Okd; Okd; (OC "uG"); Okt]).
Definition t209 : tensor := ("sr,pT,tT,TT,TT", [Okd; Okd; Okd; (OC "uGDag"); Okt]).
Definition t210 : tensor := ("st,pT,rT,TT,TT", [Okd; Okd; Okd; (OC "phiq1"); Okt]).
Definition t211 : tensor := ("st,pT,rT,TT,TT", [Okd; Okd; Okd; (OC "phiq3"); Okt]).
Definition t212 : tensor := ("st,pT,rT,TT,TT", [Okd; Okd; Okd; (OC "phiu"); Okt]).
Definition t213 : tensor := ("st,pT,rT,TT,TT", [Okd; Okd; Okd; (OC "uB"); Okt]).
Definition t214 : tensor := ("st,pT,rT,TT,TT", [Okd; Okd; Okd; (OC "uBDag"); Okt]).
Definition t215 : tensor := ("st,pT,rT,TT,TT", [Okd; Okd; Okd; (OC "uG"); Okt]).
Definition t216 : tensor := ("st,pT,rT,TT,TT", [Okd; Okd; Okd; (OC "uGDag"); Okt]).
Definition t217 : tensor := ("st,pT,rT,TT,TT", [Okd; Okd; Okd; (OC "uW"); Okt]).
Definition t218 : tensor := ("st,pT,rT,TT,TT", [Okd; Okd; Okd; (OC "uWDag"); Okt]).
Definition t219 : tensor := ("ptTT,sr,TT", [(OC "qu8"); Okd; Okt]).
Definition t220 : tensor := ("srTT,pt,TT", [(OC "qu8"); Okd; Okt]).
Definition t221 : tensor := ("pT,st,rT,TT", [(OC "uB"); Okd; Okd; Okt]).
Definition t222 : tensor := ("pT,st,rT,TT", [(OC "uG"); Okd; Okd; Okt]).
Definition t223 : tensor := ("sT,pt,rT,TT", [(OC "uG"); Okd; Okd; Okt]).
Definition t224 : tensor := ("Tr,st,pT,TT", [(OC "uBDag"); Okd; Okd; Okt]).
Definition t225 : tensor := ("Tr,st,pT,TT", [(OC "uGDag"); Okd; Okd; Okt]).
Definition t226 : tensor := ("Tt,sr,pT,TT", [(OC "uGDag"); Okd; Okd; Okt]).
Definition t227 : tensor := ("prst", [(OC "lq1")]).
Definition t228 : tensor := ("prst", [(OC "lq3")]).
Definition t229 : tensor := ("pr,st", [(OC "phil1"); Okd]).
Definition t230 : tensor := ("pr,st", [(OC "phil3"); Okd]).
Definition t231 : tensor := ("prsT,tT,TT", [(OC "lq1"); Okd; Okt]).
Definition t232 : tensor := ("prsT,tT,TT", [(OC "lq3"); Okd; Okt]).
Definition t233 : tensor := ("prTt,sT,TT", [(OC "lq1"); Okd; Okt]).
Definition t234 : tensor := ("prTt,sT,TT", [(OC "lq3"); Okd; Okt]).
Definition t235 : tensor := ("pr,sT,tT,TT", [(OC "phil1"); Okd; Okd; Okt]).
Definition t236 : tensor := ("pr,sT,tT,TT", [(OC "phil3"); Okd; Okd; Okt]).
Definition t237 : tensor := ("prTT,sT,tT,TT", [(OC "lq1"); Okd; Okd; Okt]).
Definition t238 : tensor := ("prTT,sT,tT,TT", [(OC "lq3"); Okd; Okd; Okt]).
Definition t239 : tensor := ("prTT,sT,tT,TT", [(OC "lu"); Okd; Okd; Okt]).
Definition t240 : tensor := ("prTT,st,TT", [(OC "lq1"); Okd; Okt]).
Definition t241 : tensor := ("prTT,st,TT", [(OC "lq3"); Okd; Okt]).
Definition t242 : tensor := ("prTT,st,TT", [(OC "lu"); Okd; Okt]).
Definition t243 : tensor := ("prst", [(OC "ll")]).
Definition t244 : tensor := ("ptsr", [(OC "ll")]).
Definition t245 : tensor := ("srpt", [(OC "ll")]).
Definition t246 : tensor := ("stpr", [(OC "ll")]).
Definition t247 : tensor := ("pt,sr", [(OC "phil1"); Okd]).
Definition t248 : tensor := ("pt,sr", [(OC "phil3"); Okd]).
Definition t249 : tensor := ("sr,pt", [(OC "phil1"); Okd]).
Definition t250 : tensor := ("sr,pt", [(OC "phil3"); Okd]).
Definition t251 : tensor := ("st,pr", [(OC "phil1"); Okd]).
Definition t252 : tensor := ("st,pr", [(OC "phil3"); Okd]).
Definition t253 : tensor := ("TT,pt,sr,TT", [(OC "uB"); Okd; Okd; Okt]).
Definition t254 : tensor := ("TT,pt,sr,TT", [(OC "uBDag"); Okd; Okd; Okt]).
Definition t255 : tensor := ("TT,pt,sr,TT", [(OC "uW"); Okd; Okd; Okt]).
Definition t256 : tensor := ("TT,pt,sr,TT", [(OC "uWDag"); Okd; Okd; Okt]).
Definition t257 : tensor := ("ptTT,sr,TT", [(OC "lq1"); Okd; Okt]).
Definition t258 : tensor := ("ptTT,sr,TT", [(OC "lq3"); Okd; Okt]).
Definition t259 : tensor := ("ptTT,sr,TT", [(OC "lu"); Okd; Okt]).
Definition t260 : tensor := ("srTT,pt,TT", [(OC "lq1"); Okd; Okt]).
Definition t261 : tensor := ("srTT,pt,TT", [(OC "lq3"); Okd; Okt]).
Definition t262 : tensor := ("srTT,pt,TT", [(OC "lu"); Okd; Okt]).
Definition t263 : tensor := ("stTT,pr,TT", [(OC "lq1"); Okd; Okt]).
Definition t264 : tensor := ("stTT,pr,TT", [(OC "lq3"); Okd; Okt]).
Definition t265 : tensor := ("stTT,pr,TT", [(OC "lu"); Okd; Okt]).
Definition t266 : tensor := ("TT,pt,sr,TT", [(OC "phiq1"); Okd; Okd; Okt]).
Definition t267 : tensor := ("TT,pt,sr,TT", [(OC "phiu"); Okd; Okd; Okt]).
Definition t268 : tensor := ("sTTt,pr,TT", [(OC "qq1"); Okd; Okt]).
Definition t269 : tensor := ("TtsT,pr,TT", [(OC "qq1"); Okd; Okt]).
Definition t270 : tensor := ("Tt,pr,sT,TT", [(OC "uphiDag"); Okd; Okd; Okt]).
Definition t271 : tensor := ("TtTT,pr,sT,TT", [(OC "qu1"); Okd; Okd; Okt]).
Definition t272 : tensor := ("TtTT,pr,sT,TT", [(OC "qu8"); Okd; Okd; Okt]).
Definition t273 : tensor := ("prst", [(OC "qd1")]).
Definition t274 : tensor := ("st,pr", [(OC "phid"); Okd]).
Definition t275 : tensor := ("pTst,rT,TT", [(OC "qd1"); Okd; Okt]).
Definition t276 : tensor := ("Trst,pT,TT", [(OC "qd1"); Okd; Okt]).
Definition t277 : tensor := ("st,pT,rT,TT", [(OC "phid"); Okd; Okd; Okt]).
Definition t278 : tensor := ("TTst,pT,rT,TT", [(OC "qd1"); Okd; Okd; Okt]).
Definition t279 : tensor := ("TTst,pT,rT,TT", [(OC "ud1"); Okd; Okd; Okt]).
Definition t280 : tensor := ("TTst,pr,TT", [(OC "qd1"); Okd; Okt]).
Definition t281 : tensor := ("TTst,pr,TT", [(OC "ud1"); Okd; Okt]).
Definition t282 : tensor := ("prst", [(OC "qu1")]).
Definition t283 : tensor := ("st,pr", [(OC "phiu"); Okd]).
Definition t284 : tensor := ("pTst,rT,TT", [(OC "qu1"); Okd; Okt]).
Definition t285 : tensor := ("sTTt,pr,TT", [(OC "uu"); Okd; Okt]).
Definition t286 : tensor := ("Trst,pT,TT", [(OC "qu1"); Okd; Okt]).
Definition t287 : tensor := ("TtsT,pr,TT", [(OC "uu"); Okd; Okt]).
Definition t288 : tensor := ("st,pT,rT,TT", [(OC "phiu"); Okd; Okd; Okt]).
Definition t289 : tensor := ("stTT,pT,rT,TT", [(OC "uu"); Okd; Okd; Okt]).
Definition t290 : tensor := ("sTTt,pT,rT,TT", [(OC "uu"); Okd; Okd; Okt]).
Definition t291 : tensor := ("TtsT,pT,rT,TT", [(OC "uu"); Okd; Okd; Okt]).
Definition t292 : tensor := ("TTst,pT,rT,TT", [(OC "qu1"); Okd; Okd; Okt]).
Definition t293 : tensor := ("TTst,pT,rT,TT", [(OC "uu"); Okd; Okd; Okt]).
Definition t294 : tensor := ("stTT,pr,TT", [(OC "uu"); Okd; Okt]).
Definition t295 : tensor := ("TTst,pr,TT", [(OC "qu1"); Okd; Okt]).
Definition t296 : tensor := ("TTst,pr,TT", [(OC "uu"); Okd; Okt]).
Definition t297 : tensor := ("st,pr", [(OC "phiudDag"); Okd]).
Definition t298 : tensor := ("prst", [(OC "qd8")]).
Definition t299 : tensor := ("pTst,rT,TT", [(OC "qd8"); Okd; Okt]).
Definition t300 : tensor := ("Trst,pT,TT", [(OC "qd8"); Okd; Okt]).
Definition t301 : tensor := ("TTst,pT,rT,TT", [(OC "qd8"); Okd; Okd; Okt]).
Definition t302 : tensor := ("TTst,pT,rT,TT", [(OC "ud8"); Okd; Okd; Okt]).
Definition t303 : tensor := ("TTst,pr,TT", [(OC "qd8"); Okd; Okt]).
Definition t304 : tensor := ("TTst,pr,TT", [(OC "ud8"); Okd; Okt]).
Definition t305 : tensor := ("prst", [(OC "qu8")]).
Definition t306 : tensor := ("pTst,rT,TT", [(OC "qu8"); Okd; Okt]).
Definition t307 : tensor := ("Trst,pT,TT", [(OC "qu8"); Okd; Okt]).
Definition t308 : tensor := ("TTst,pT,rT,TT", [(OC "qu8"); Okd; Okd; Okt]).
Definition t309 : tensor := ("TTst,pr,TT", [(OC "qu8"); Okd; Okt]).
Definition t310 : tensor := ("prst", [(OC "qe")]).
Definition t311 : tensor := ("st,pr", [(OC "phie"); Okd]).
Definition t312 : tensor := ("pTst,rT,TT", [(OC "qe"); Okd; Okt]).
Definition t313 : tensor := ("Trst,pT,TT", [(OC "qe"); Okd; Okt]).
Definition t314 : tensor := ("st,pT,rT,TT", [(OC "phie"); Okd; Okd; Okt]).
Definition t315 : tensor := ("stTT,pT,rT,TT", [(OC "eu"); Okd; Okd; Okt]).
Definition t316 : tensor := ("TTst,pT,rT,TT", [(OC "qe"); Okd; Okd; Okt]).
Definition t317 : tensor := ("stTT,pr,TT", [(OC "eu"); Okd; Okt]).
Definition t318 : tensor := ("TTst,pr,TT", [(OC "qe"); Okd; Okt]).
Definition t319 : tensor := ("prst", [(OC "ld")]).
Definition t320 : tensor := ("prst", [(OC "le")]).
Definition t321 : tensor := ("prst", [(OC "lu")]).
Definition t322 : tensor := ("ptsr", [(OC "quqd1")]).
Definition t323 : tensor := ("ptsr", [(OC "quqd8")]).
Definition t324 : tensor := ("stpr", [(OC "quqd1")]).
Definition t325 : tensor := ("Ttpr,sT,TT", [(OC "quqd1"); Okd; Okt]).
Definition t326 : tensor := ("ptTr,sT,TT", [(OC "quqd1"); Okd; Okt]).
Definition t327 : tensor := ("ptTr,sT,TT", [(OC "quqd8"); Okd; Okt]).
Definition t328 : tensor := ("prst", [(OC "quqd1")]).
Definition t329 : tensor := ("srpt", [(OC "quqd1")]).
Definition t330 : tensor := ("srpt", [(OC "quqd8")]).
Definition t331 : tensor := ("prTt,sT,TT", [(OC "quqd1"); Okd; Okt]).
Definition t332 : tensor := ("Trpt,sT,TT", [(OC "quqd1"); Okd; Okt]).
Definition t333 : tensor := ("Trpt,sT,TT", [(OC "quqd8"); Okd; Okt]).
Definition t334 : tensor := ("stpr", [(OC "quqd8")]).
Definition t335 : tensor := ("Ttpr,sT,TT", [(OC "quqd8"); Okd; Okt]).
Definition t336 : tensor := ("prst", [(OC "quqd8")]).
Definition t337 : tensor := ("prTt,sT,TT", [(OC "quqd8"); Okd; Okt]).
Definition t338 : tensor := ("prst", [(OC "lequ1")]).
Definition t339 : tensor := ("prst", [(OC "lequ3")]).
Definition t340 : tensor := ("prTt,sT,TT", [(OC "lequ1"); Okd; Okt]).
Definition t341 : tensor := ("prTt,sT,TT", [(OC "lequ3"); Okd; Okt]).
Definition t342 : tensor := ("prst", [(OC "ledq")]).
Definition t343 : tensor := ("prsT,tT,TT", [(OC "ledq"); Okd; Okt]).
Definition t344 : tensor := ("prst", [(OC "ud1")]).
Definition t345 : tensor := ("pr,st", [(OC "phiu"); Okd]).
Definition t346 : tensor := ("pTTr,st,TT", [(OC "uu"); Okd; Okt]).
Definition t347 : tensor := ("TrpT,st,TT", [(OC "uu"); Okd; Okt]).
Definition t348 : tensor := ("prTT,st,TT", [(OC "uu"); Okd; Okt]).
Definition t349 : tensor := ("TTpr,st,TT", [(OC "qu1"); Okd; Okt]).
Definition t350 : tensor := ("TTpr,st,TT", [(OC "uu"); Okd; Okt]).
Definition t351 : tensor := ("prst", [(OC "ud8")]).
Definition t352 : tensor := ("TTpr,st,TT", [(OC "qu8"); Okd; Okt]).
Definition t353 : tensor := ("prst", [(OC "dd")]).
Definition t354 : tensor := ("stpr", [(OC "dd")]).
Definition t355 : tensor := ("pr,st", [(OC "phid"); Okd]).
Definition t356 : tensor := ("pt,sr", [(OC "phid"); Okd]).
Definition t357 : tensor := ("sr,pt", [(OC "phid"); Okd]).
Definition t358 : tensor := ("TTpr,st,TT", [(OC "qd1"); Okd; Okt]).
Definition t359 : tensor := ("TTpr,st,TT", [(OC "qd8"); Okd; Okt]).
Definition t360 : tensor := ("TTpr,st,TT", [(OC "ud1"); Okd; Okt]).
Definition t361 : tensor := ("TTpr,st,TT", [(OC "ud8"); Okd; Okt]).
Definition t362 : tensor := ("TTpt,sr,TT", [(OC "qd8"); Okd; Okt]).
Definition t363 : tensor := ("TTpt,sr,TT", [(OC "ud8"); Okd; Okt]).
Definition t364 : tensor := ("TTsr,pt,TT", [(OC "qd8"); Okd; Okt]).
Definition t365 : tensor := ("TTsr,pt,TT", [(OC "ud8"); Okd; Okt]).
Definition t366 : tensor := ("prst", [(OC "ed")]).
Definition t367 : tensor := ("pr,st", [(OC "phie"); Okd]).
Definition t368 : tensor := ("prTT,st,TT", [(OC "eu"); Okd; Okt]).
Definition t369 : tensor := ("TTpr,st,TT", [(OC "qe"); Okd; Okt]).
Definition t370 : tensor := ("prst", [(OC "ee")]).
Definition t371 : tensor := ("ptsr", [(OC "ee")]).
Definition t372 : tensor := ("srpt", [(OC "ee")]).
Definition t373 : tensor := ("stpr", [(OC "ee")]).
Definition t374 : tensor := ("pt,sr", [(OC "phie"); Okd]).
Definition t375 : tensor := ("sr,pt", [(OC "phie"); Okd]).
Definition t376 : tensor := ("ptTT,sr,TT", [(OC "eu"); Okd; Okt]).
Definition t377 : tensor := ("srTT,pt,TT", [(OC "eu"); Okd; Okt]).
Definition t378 : tensor := ("TTpt,sr,TT", [(OC "qe"); Okd; Okt]).
Definition t379 : tensor := ("TTsr,pt,TT", [(OC "qe"); Okd; Okt]).
Definition t380 : tensor := ("prst", [(OC "eu")]).
Definition t381 : tensor := ("prst", [(OC "uu")]).
Definition t382 : tensor := ("stpr", [(OC "uu")]).
Definition t383 : tensor := ("pt,sr", [(OC "phiu"); Okd]).
Definition t384 : tensor := ("sr,pt", [(OC "phiu"); Okd]).
Definition t385 : tensor := ("pTTt,sr,TT", [(OC "uu"); Okd; Okt]).
Definition t386 : tensor := ("sTTr,pt,TT", [(OC "uu"); Okd; Okt]).
Definition t387 : tensor := ("TrsT,pt,TT", [(OC "uu"); Okd; Okt]).
Definition t388 : tensor := ("TtpT,sr,TT", [(OC "uu"); Okd; Okt]).
Definition t389 : tensor := ("TTpt,sr,TT", [(OC "qu8"); Okd; Okt]).
Definition t390 : tensor := ("TTsr,pt,TT", [(OC "qu8"); Okd; Okt]).
Definition t391 : tensor := ("pr", [(OC "eB")]).
Definition t392 : tensor := ("pr", [(OC "eW")]).
Definition t393 : tensor := ("pr", [(OD Fe)]).
Definition t394 : tensor := ("pr,p->pr", [(OC "phie"); (OM Fe)]).
Definition t395 : tensor := ("pr,r->pr", [(OC "phil1"); (OM Fe)]).
Definition t396 : tensor := ("pr,r->pr", [(OC "phil3"); (OM Fe)]).
Definition t397 : tensor := ("prTT,TT", [(OC "lequ3"); Okt]).
Definition t398 : tensor := ("pr", [(OC "uB")]).
Definition t399 : tensor := ("pr", [(OC "uG")]).
Definition t400 : tensor := ("pr", [(OC "uW")]).
Definition t401 : tensor := ("pr", [(OD Fu)]).
Definition t402 : tensor := ("pr,p->pr", [(OC "phiu"); (OM Fu)]).
Definition t403 : tensor := ("pr,r->pr", [(OC "phiq1"); (OM Fu)]).
Definition t404 : tensor := ("pr,r->pr", [(OC "phiq3"); (OM Fu)]).
Definition t405 : tensor := ("pTTr,TT", [(OC "qu1"); Okt]).
Definition t406 : tensor := ("pTTr,TT", [(OC "qu8"); Okt]).
Definition t407 : tensor := ("pu,ur,u", [OV; (OC "phiudDag"); (OM Fd)]).
Definition t408 : tensor := ("pr", [(OD Fd)]).
Definition t409 : tensor := ("pa,ar->pr", [(OD Fd); (OC "phid")]).
Definition t410 : tensor := ("zr,pz", [(OC "dB"); OVd]).
Definition t411 : tensor := ("zr,pz", [(OC "dW"); OVd]).
Definition t412 : tensor := ("Tr,pT,TT", [(OC "dB"); OVd; Okt]).
Definition t413 : tensor := ("Tr,pT,TT", [(OC "dW"); OVd; Okt]).
Definition t414 : tensor := ("Tr,pT,TT", [(OC "phiud"); OVd; Okt]).
Definition t415 : tensor := ("ra,Ta,pT,TT", [(OD Fd); OV; OVd; Okt]).
Definition t416 : tensor := ("ra,ba,cb,pc->pr", [(OD Fd); OV; (OC "phiq1"); OVd]).
Definition t417 : tensor := ("ra,ba,cb,pc->pr", [(OD Fd); OV; (OC "phiq3"); OVd]).
Definition t418 : tensor := ("ra,Ta,pT,TT,TT", [(OD Fd); OV; OVd; (OC "uB"); Okt]).
Definition t419 : tensor := ("ra,Ta,pT,TT,TT", [(OD Fd); OV; OVd; (OC "uW"); Okt]).
Definition t420 : tensor := ("ra,Ta,pz,zT,TT", [(OD Fd); OV; OVd; (OC "phiq3"); Okt]).
Definition t421 : tensor := ("ra,Ta,pz,zT,TT", [(OD Fd); OV; OVd; (OC "uB"); Okt]).
Definition t422 : tensor := ("ra,Ta,pz,zT,TT", [(OD Fd); OV; OVd; (OC "uW"); Okt]).
Definition t423 : tensor := ("ra,va,pT,Tv,TT", [(OD Fd); OV; OVd; (OC "phiq3"); Okt]).
Definition t424 : tensor := ("ra,va,pT,Tv,TT", [(OD Fd); OV; OVd; (OC "uBDag"); Okt]).
Definition t425 : tensor := ("ra,va,pT,Tv,TT", [(OD Fd); OV; OVd; (OC "uWDag"); Okt]).
Definition t426 : tensor := ("zTTr,pz,TT", [(OC "quqd1"); OVd; Okt]).
Definition t427 : tensor := ("zTTr,pz,TT", [(OC "quqd8"); OVd; Okt]).
Definition t428 : tensor := ("ur,u,pu", [(OC "phiud"); (OM Fu); OVd]).
Definition t429 : tensor := ("zr,pz", [(OC "dG"); OVd]).
Definition t430 : tensor := ("Tr,pT,TT", [(OC "dG"); OVd; Okt]).
Definition t431 : tensor := ("ra,Ta,pT,TT,TT", [(OD Fd); OV; OVd; (OC "uG"); Okt]).
Definition t432 : tensor := ("ra,Ta,pz,zT,TT", [(OD Fd); OV; OVd; (OC "uG"); Okt]).
Definition t433 : tensor := ("ra,va,pT,Tv,TT", [(OD Fd); OV; OVd; (OC "uGDag"); Okt]).
(* smeft_loop.py:60-117 and 134-149 *)
Definition loop_prog : list (string * list group) := [
  ("Gtilde", [(None, Some "Gtilde", p0);
    (Some t0, None, p1);
    (Some t1, None, p2)]);
  ("G", [(None, None, p3);
    (None, Some "G", p0);
    (Some t0, None, p4);
    (Some t1, None, p4)]);
  ("SduuLL", [(Some t2, None, p5);
    (Some t3, None, p6);
    (Some t4, None, p7);
    (Some t5, None, p8);
    (Some t6, None, p9);
    (Some t7, None, p10);
    (Some t8, None, p11);
    (Some t9, None, p12);
    (Some t10, None, p13);
    (Some t11, None, p14);
    (Some t12, None, p15);
    (Some t13, None, p16)]);
  ("SuddLL", [(Some t2, None, p5);
    (Some t3, None, p6);
    (Some t4, None, p17);
    (Some t5, None, p18);
    (Some t6, None, p19);
    (Some t7, None, p20);
    (Some t14, None, p12);
    (Some t15, None, p11);
    (Some t16, None, p13);
    (Some t17, None, p12);
    (Some t18, None, p13);
    (Some t19, None, p11);
    (Some t20, None, p15);
    (Some t21, None, p16);
    (Some t22, None, p16);
    (Some t23, None, p15);
    (Some t24, None, p14);
    (Some t25, None, p14)]);
  ("SduuLR", [(Some t26, None, p21);
    (Some t27, None, p21);
    (Some t28, None, p22);
    (Some t29, None, p22)]);
  ("SdudRL", [(Some t30, None, p23);
    (Some t31, None, p22)]);
  ("SduuRL", [(Some t30, None, p24)]);
  ("SduuRR", [(Some t32, None, p25);
    (Some t33, None, p26)]);
  ("V1udLL", [(Some t34, None, p27);
    (Some t35, None, p28);
    (Some t36, None, p29);
    (Some t37, None, p30);
    (Some t38, None, p29);
    (Some t39, None, p30);
    (Some t40, None, p27);
    (Some t41, None, p28);
    (Some t42, None, p31);
    (Some t42, Some "phi", p32);
    (Some t42, Some "phiB", p33);
    (Some t42, Some "phiBox", p34);
    (Some t42, Some "phiD", p35);
    (Some t42, Some "phiW", p36);
    (Some t42, Some "phiWB", p37);
    (Some t42, Some "W", p38);
    (Some t43, None, p39);
    (Some t44, None, p40);
    (Some t45, None, p41);
    (Some t45, Some "phi", p42);
    (Some t45, Some "phiB", p43);
    (Some t45, Some "phiBox", p44);
    (Some t45, Some "phiD", p45);
    (Some t45, Some "phiW", p46);
    (Some t45, Some "phiWB", p47);
    (Some t46, None, p48);
    (Some t47, None, p48);
    (Some t48, None, p49);
    (Some t49, None, p50);
    (Some t50, None, p51);
    (Some t51, None, p52);
    (Some t52, None, p51);
    (Some t53, None, p52);
    (Some t54, None, p53);
    (Some t55, None, p53);
    (Some t56, None, p54);
    (Some t57, None, p54);
    (Some t58, None, p55);
    (Some t59, None, p56);
    (Some t60, None, p57);
    (Some t61, None, p53);
    (Some t62, None, p55);
    (Some t63, None, p51);
    (Some t64, None, p52);
    (Some t65, None, p56);
    (Some t66, None, p57);
    (Some t67, None, p58);
    (Some t68, None, p53);
    (Some t69, None, p54);
    (Some t70, None, p54);
    (Some t71, None, p56);
    (Some t72, None, p57);
    (Some t73, None, p51);
    (Some t74, None, p52);
    (Some t75, None, p56);
    (Some t76, None, p57);
    (Some t77, None, p55);
    (Some t78, None, p55);
    (Some t79, None, p58);
    (Some t80, None, p59);
    (Some t80, Some "phiD", p60);
    (Some t80, Some "phiWB", p61);
    (Some t80, Some "W", p62);
    (Some t81, None, p63);
    (Some t82, None, p64);
    (Some t83, None, p65);
    (Some t84, None, p65);
    (Some t85, None, p66);
    (Some t86, None, p67);
    (Some t87, None, p68);
    (Some t88, None, p69);
    (Some t89, None, p70);
    (Some t90, None, p71);
    (Some t91, None, p72);
    (Some t92, None, p73);
    (Some t93, None, p73);
    (Some t94, None, p74);
    (Some t95, None, p75);
    (Some t96, None, p76);
    (Some t97, None, p77);
    (Some t98, None, p78);
    (Some t99, None, p67);
    (Some t100, None, p68);
    (Some t101, None, p69);
    (Some t102, None, p70);
    (Some t103, None, p71);
    (Some t104, None, p72);
    (Some t105, None, p73);
    (Some t106, None, p73);
    (Some t107, None, p74);
    (Some t108, None, p75);
    (Some t109, None, p76);
    (Some t110, None, p77);
    (Some t111, None, p78);
    (Some t112, None, p79);
    (Some t113, None, p79);
    (Some t114, None, p65);
    (Some t115, None, p65);
    (Some t116, None, p80);
    (Some t117, None, p81);
    (Some t118, None, p81);
    (Some t119, None, p82);
    (Some t120, None, p83);
    (Some t121, None, p84);
    (Some t122, None, p85);
    (Some t123, None, p85);
    (Some t124, None, p86);
    (Some t125, None, p86);
    (Some t126, None, p87);
    (Some t127, None, p87);
    (Some t128, None, p88);
    (Some t129, None, p89);
    (Some t130, None, p89);
    (Some t131, None, p89);
    (Some t132, None, p90);
    (Some t133, None, p91);
    (Some t134, None, p92);
    (Some t135, None, p89);
    (Some t136, None, p87);
    (Some t137, None, p87);
    (Some t138, None, p90);
    (Some t139, None, p91);
    (Some t140, None, p93);
    (Some t141, None, p93);
    (Some t142, None, p94);
    (Some t143, None, p95);
    (Some t144, None, p96);
    (Some t145, None, p97);
    (Some t146, None, p97);
    (Some t147, None, p98);
    (Some t148, None, p98);
    (Some t149, None, p99);
    (Some t150, None, p99)]);
  ("V8udLL", [(Some t36, None, p100);
    (Some t37, None, p101);
    (Some t38, None, p100);
    (Some t39, None, p101);
    (Some t42, None, p102);
    (Some t42, Some "phiD", p103);
    (Some t42, Some "phiWB", p104);
    (Some t43, None, p105);
    (Some t44, None, p106);
    (Some t45, None, p107);
    (Some t45, Some "phi", p108);
    (Some t45, Some "phiB", p109);
    (Some t45, Some "phiBox", p110);
    (Some t45, Some "phiD", p111);
    (Some t45, Some "phiW", p112);
    (Some t45, Some "phiWB", p113);
    (Some t46, None, p114);
    (Some t47, None, p114);
    (Some t48, None, p115);
    (Some t49, None, p116);
    (Some t54, None, p117);
    (Some t55, None, p117);
    (Some t56, None, p118);
    (Some t57, None, p118);
    (Some t58, None, p119);
    (Some t59, None, p120);
    (Some t60, None, p121);
    (Some t61, None, p117);
    (Some t62, None, p119);
    (Some t65, None, p120);
    (Some t66, None, p121);
    (Some t67, None, p122);
    (Some t68, None, p117);
    (Some t69, None, p118);
    (Some t70, None, p118);
    (Some t71, None, p120);
    (Some t72, None, p121);
    (Some t75, None, p120);
    (Some t76, None, p121);
    (Some t77, None, p119);
    (Some t78, None, p119);
    (Some t79, None, p122);
    (Some t80, None, p123);
    (Some t151, None, p66);
    (Some t86, None, p124);
    (Some t87, None, p125);
    (Some t88, None, p126);
    (Some t89, None, p127);
    (Some t90, None, p128);
    (Some t91, None, p129);
    (Some t92, None, p130);
    (Some t93, None, p130);
    (Some t94, None, p131);
    (Some t95, None, p132);
    (Some t97, None, p133);
    (Some t98, None, p134);
    (Some t99, None, p124);
    (Some t100, None, p125);
    (Some t101, None, p126);
    (Some t102, None, p127);
    (Some t103, None, p128);
    (Some t104, None, p129);
    (Some t105, None, p130);
    (Some t106, None, p130);
    (Some t107, None, p131);
    (Some t108, None, p132);
    (Some t110, None, p133);
    (Some t111, None, p134);
    (Some t152, None, p135);
    (Some t153, None, p135);
    (Some t116, None, p136);
    (Some t117, None, p137);
    (Some t118, None, p137);
    (Some t154, None, p138);
    (Some t155, None, p138);
    (Some t156, None, p139);
    (Some t129, None, p140);
    (Some t130, None, p140);
    (Some t131, None, p140);
    (Some t157, None, p139);
    (Some t135, None, p140);
    (Some t158, None, p141);
    (Some t159, None, p141);
    (Some t149, None, p142);
    (Some t150, None, p142)]);
  ("VddLL", [(Some t34, None, p143);
    (Some t35, None, p144);
    (Some t40, None, p143);
    (Some t41, None, p144);
    (Some t42, None, p145);
    (Some t42, Some "phi", p146);
    (Some t42, Some "phiB", p147);
    (Some t42, Some "phiBox", p148);
    (Some t42, Some "phiD", p149);
    (Some t42, Some "phiW", p150);
    (Some t42, Some "phiWB", p151);
    (Some t42, Some "W", p152);
    (Some t43, None, p153);
    (Some t44, None, p154);
    (Some t45, None, p155);
    (Some t45, Some "phiD", p156);
    (Some t45, Some "phiWB", p157);
    (Some t149, None, p158);
    (Some t46, None, p159);
    (Some t150, None, p158);
    (Some t47, None, p159);
    (Some t48, None, p153);
    (Some t49, None, p154);
    (Some t50, None, p160);
    (Some t51, None, p160);
    (Some t52, None, p160);
    (Some t53, None, p160);
    (Some t160, None, p160);
    (Some t161, None, p160);
    (Some t57, None, p161);
    (Some t60, None, p162);
    (Some t63, None, p160);
    (Some t64, None, p160);
    (Some t162, None, p160);
    (Some t163, None, p160);
    (Some t164, None, p160);
    (Some t165, None, p160);
    (Some t66, None, p162);
    (Some t67, None, p161);
    (Some t70, None, p161);
    (Some t166, None, p160);
    (Some t167, None, p160);
    (Some t72, None, p162);
    (Some t73, None, p160);
    (Some t74, None, p160);
    (Some t76, None, p162);
    (Some t79, None, p161);
    (Some t80, None, p163);
    (Some t80, Some "phiD", p164);
    (Some t80, Some "phiWB", p165);
    (Some t80, Some "W", p166);
    (Some t81, None, p167);
    (Some t82, None, p168);
    (Some t83, None, p169);
    (Some t84, None, p170);
    (Some t85, None, p171);
    (Some t151, None, p172);
    (Some t168, None, p173);
    (Some t87, None, p174);
    (Some t91, None, p175);
    (Some t169, None, p176);
    (Some t170, None, p177);
    (Some t171, None, p178);
    (Some t172, None, p179);
    (Some t173, None, p65);
    (Some t174, None, p173);
    (Some t175, None, p179);
    (Some t96, None, p176);
    (Some t97, None, p177);
    (Some t98, None, p178);
    (Some t176, None, p163);
    (Some t176, Some "phiD", p164);
    (Some t176, Some "phiWB", p165);
    (Some t176, Some "W", p166);
    (Some t177, None, p167);
    (Some t178, None, p168);
    (Some t179, None, p174);
    (Some t180, None, p175);
    (Some t181, None, p65);
    (Some t182, None, p169);
    (Some t183, None, p170);
    (Some t184, None, p171);
    (Some t185, None, p172);
    (Some t100, None, p174);
    (Some t104, None, p175);
    (Some t186, None, p176);
    (Some t187, None, p177);
    (Some t188, None, p178);
    (Some t189, None, p65);
    (Some t109, None, p176);
    (Some t110, None, p177);
    (Some t111, None, p178);
    (Some t145, None, p180);
    (Some t146, None, p180);
    (Some t152, None, p181);
    (Some t153, None, p181);
    (Some t112, None, p182);
    (Some t113, None, p182);
    (Some t114, None, p169);
    (Some t115, None, p170);
    (Some t190, None, p65);
    (Some t191, None, p183);
    (Some t192, None, p183);
    (Some t193, None, p174);
    (Some t194, None, p175);
    (Some t195, None, p169);
    (Some t196, None, p170);
    (Some t119, None, p184);
    (Some t120, None, p185);
    (Some t121, None, p186);
    (Some t122, None, p187);
    (Some t123, None, p187);
    (Some t154, None, p188);
    (Some t155, None, p188);
    (Some t124, None, p189);
    (Some t125, None, p189);
    (Some t197, None, p190);
    (Some t198, None, p190);
    (Some t199, None, p191);
    (Some t200, None, p192);
    (Some t201, None, p191);
    (Some t202, None, p192);
    (Some t203, None, p191);
    (Some t204, None, p192);
    (Some t205, None, p193);
    (Some t206, None, p191);
    (Some t207, None, p192);
    (Some t208, None, p190);
    (Some t209, None, p190);
    (Some t210, None, p184);
    (Some t211, None, p185);
    (Some t212, None, p186);
    (Some t213, None, p187);
    (Some t214, None, p187);
    (Some t215, None, p188);
    (Some t216, None, p188);
    (Some t217, None, p189);
    (Some t218, None, p189);
    (Some t126, None, p194);
    (Some t127, None, p195);
    (Some t128, None, p196);
    (Some t156, None, p197);
    (Some t219, None, p198);
    (Some t220, None, p198);
    (Some t132, None, p194);
    (Some t133, None, p195);
    (Some t134, None, p196);
    (Some t157, None, p197);
    (Some t136, None, p194);
    (Some t137, None, p195);
    (Some t138, None, p194);
    (Some t139, None, p195);
    (Some t89, None, p199);
    (Some t221, None, p200);
    (Some t222, None, p201);
    (Some t140, None, p200);
    (Some t158, None, p201);
    (Some t223, None, p199);
    (Some t102, None, p199);
    (Some t224, None, p200);
    (Some t225, None, p201);
    (Some t141, None, p200);
    (Some t159, None, p201);
    (Some t142, None, p202);
    (Some t143, None, p203);
    (Some t144, None, p204);
    (Some t147, None, p205);
    (Some t148, None, p205);
    (Some t226, None, p199)]);
  ("VedLL", [(Some t227, None, p206);
    (Some t228, None, p207);
    (Some t42, None, p208);
    (Some t42, Some "phi", p209);
    (Some t42, Some "phiB", p210);
    (Some t42, Some "phiBox", p211);
    (Some t42, Some "phiD", p212);
    (Some t42, Some "phiW", p213);
    (Some t42, Some "phiWB", p214);
    (Some t42, Some "W", p215);
    (Some t229, None, p216);
    (Some t230, None, p217);
    (Some t48, None, p218);
    (Some t49, None, p219);
    (Some t231, None, p51);
    (Some t232, None, p51);
    (Some t233, None, p51);
    (Some t234, None, p51);
    (Some t67, None, p220);
    (Some t79, None, p220);
    (Some t80, None, p221);
    (Some t80, Some "phiD", p222);
    (Some t80, Some "phiWB", p223);
    (Some t80, Some "W", p224);
    (Some t235, None, p63);
    (Some t236, None, p225);
    (Some t237, None, p65);
    (Some t238, None, p226);
    (Some t239, None, p66);
    (Some t96, None, p227);
    (Some t97, None, p228);
    (Some t98, None, p229);
    (Some t109, None, p227);
    (Some t110, None, p228);
    (Some t111, None, p229);
    (Some t112, None, p230);
    (Some t113, None, p230);
    (Some t119, None, p231);
    (Some t120, None, p232);
    (Some t121, None, p233);
    (Some t122, None, p234);
    (Some t123, None, p234);
    (Some t124, None, p235);
    (Some t125, None, p235);
    (Some t240, None, p87);
    (Some t241, None, p236);
    (Some t242, None, p88);
    (Some t132, None, p237);
    (Some t133, None, p238);
    (Some t134, None, p239);
    (Some t138, None, p237);
    (Some t139, None, p238);
    (Some t140, None, p240);
    (Some t141, None, p240);
    (Some t142, None, p241);
    (Some t143, None, p242);
    (Some t144, None, p243);
    (Some t145, None, p244);
    (Some t146, None, p244);
    (Some t147, None, p245);
    (Some t148, None, p245)]);
  ("VeeLL", [(Some t243, None, p246);
    (Some t244, None, p246);
    (Some t245, None, p246);
    (Some t246, None, p246);
    (Some t42, None, p247);
    (Some t42, Some "phi", p248);
    (Some t42, Some "phiB", p249);
    (Some t42, Some "phiBox", p250);
    (Some t42, Some "phiD", p251);
    (Some t42, Some "phiW", p252);
    (Some t42, Some "phiWB", p253);
    (Some t42, Some "W", p254);
    (Some t229, None, p255);
    (Some t230, None, p256);
    (Some t45, None, p247);
    (Some t45, Some "phi", p248);
    (Some t45, Some "phiB", p249);
    (Some t45, Some "phiBox", p250);
    (Some t45, Some "phiD", p251);
    (Some t45, Some "phiW", p252);
    (Some t45, Some "phiWB", p253);
    (Some t45, Some "W", p254);
    (Some t247, None, p255);
    (Some t248, None, p256);
    (Some t249, None, p255);
    (Some t250, None, p256);
    (Some t251, None, p255);
    (Some t252, None, p256);
    (Some t145, None, p257);
    (Some t146, None, p257);
    (Some t112, None, p258);
    (Some t113, None, p258);
    (Some t147, None, p259);
    (Some t148, None, p259);
    (Some t253, None, p257);
    (Some t254, None, p257);
    (Some t117, None, p258);
    (Some t118, None, p258);
    (Some t255, None, p259);
    (Some t256, None, p259);
    (Some t240, None, p260);
    (Some t241, None, p261);
    (Some t242, None, p262);
    (Some t257, None, p260);
    (Some t258, None, p261);
    (Some t259, None, p262);
    (Some t260, None, p260);
    (Some t261, None, p261);
    (Some t262, None, p262);
    (Some t263, None, p260);
    (Some t264, None, p261);
    (Some t265, None, p262);
    (Some t142, None, p263);
    (Some t143, None, p264);
    (Some t144, None, p265);
    (Some t266, None, p263);
    (Some t116, None, p264);
    (Some t267, None, p265)]);
  ("VeuLL", [(Some t227, None, p266);
    (Some t228, None, p267);
    (Some t42, None, p268);
    (Some t42, Some "phi", p269);
    (Some t42, Some "phiB", p270);
    (Some t42, Some "phiBox", p271);
    (Some t42, Some "phiD", p272);
    (Some t42, Some "phiW", p273);
    (Some t42, Some "phiWB", p274);
    (Some t42, Some "W", p275);
    (Some t229, None, p276);
    (Some t230, None, p277);
    (Some t48, None, p278);
    (Some t49, None, p279);
    (Some t268, None, p280);
    (Some t67, None, p280);
    (Some t269, None, p280);
    (Some t79, None, p280);
    (Some t112, None, p281);
    (Some t113, None, p281);
    (Some t240, None, p90);
    (Some t241, None, p91);
    (Some t242, None, p92);
    (Some t132, None, p237);
    (Some t133, None, p237);
    (Some t134, None, p239);
    (Some t138, None, p237);
    (Some t139, None, p237);
    (Some t142, None, p282);
    (Some t143, None, p283);
    (Some t144, None, p284);
    (Some t145, None, p285);
    (Some t146, None, p285);
    (Some t147, None, p286);
    (Some t148, None, p286)]);
  ("VnudLL", [(Some t227, None, p287);
    (Some t228, None, p288);
    (Some t42, None, p289);
    (Some t42, Some "phi", p290);
    (Some t42, Some "phiB", p291);
    (Some t42, Some "phiBox", p292);
    (Some t42, Some "phiD", p293);
    (Some t42, Some "phiW", p294);
    (Some t42, Some "phiWB", p295);
    (Some t42, Some "W", p296);
    (Some t229, None, p297);
    (Some t230, None, p298);
    (Some t48, None, p299);
    (Some t49, None, p300);
    (Some t231, None, p51);
    (Some t232, None, p52);
    (Some t233, None, p51);
    (Some t234, None, p52);
    (Some t67, None, p301);
    (Some t79, None, p301);
    (Some t80, None, p302);
    (Some t80, Some "phiD", p167);
    (Some t235, None, p63);
    (Some t236, None, p64);
    (Some t237, None, p65);
    (Some t238, None, p65);
    (Some t239, None, p66);
    (Some t96, None, p51);
    (Some t97, None, p303);
    (Some t98, None, p304);
    (Some t109, None, p51);
    (Some t110, None, p303);
    (Some t111, None, p304);
    (Some t112, None, p305);
    (Some t113, None, p305);
    (Some t119, None, p65);
    (Some t120, None, p226);
    (Some t121, None, p66);
    (Some t240, None, p87);
    (Some t241, None, p87);
    (Some t242, None, p88);
    (Some t132, None, p306);
    (Some t133, None, p307);
    (Some t134, None, p307);
    (Some t138, None, p306);
    (Some t139, None, p307);
    (Some t142, None, p308);
    (Some t143, None, p309);
    (Some t144, None, p310);
    (Some t145, None, p311);
    (Some t146, None, p311);
    (Some t147, None, p312);
    (Some t148, None, p312)]);
  ("VnueduLL", [(Some t227, None, p313);
    (Some t228, None, p314);
    (Some t42, None, p315);
    (Some t42, Some "phi", p316);
    (Some t42, Some "phiB", p317);
    (Some t42, Some "phiBox", p318);
    (Some t42, Some "phiD", p319);
    (Some t42, Some "phiW", p320);
    (Some t42, Some "phiWB", p321);
    (Some t42, Some "phiWtildeB", p322);
    (Some t230, None, p323);
    (Some t49, None, p323);
    (Some t234, None, p324);
    (Some t241, None, p325);
    (Some t133, None, p325);
    (Some t268, None, p326);
    (Some t67, None, p327);
    (Some t269, None, p326);
    (Some t79, None, p327);
    (Some t139, None, p325);
    (Some t109, None, p328);
    (Some t110, None, p329);
    (Some t141, None, p330);
    (Some t159, None, p331);
    (Some t270, None, p332);
    (Some t111, None, p333);
    (Some t143, None, p334);
    (Some t112, None, p335);
    (Some t113, None, p335);
    (Some t271, None, p80);
    (Some t272, None, p336);
    (Some t233, None, p337);
    (Some t229, None, p338);
    (Some t48, None, p339)]);
  ("VnueLL", [(Some t243, None, p340);
    (Some t244, None, p313);
    (Some t245, None, p313);
    (Some t246, None, p340);
    (Some t42, None, p341);
    (Some t42, Some "phi", p342);
    (Some t42, Some "phiB", p343);
    (Some t42, Some "phiBox", p344);
    (Some t42, Some "phiD", p345);
    (Some t42, Some "phiW", p346);
    (Some t42, Some "phiWB", p347);
    (Some t42, Some "W", p348);
    (Some t229, None, p349);
    (Some t230, None, p350);
    (Some t45, None, p351);
    (Some t45, Some "phi", p316);
    (Some t45, Some "phiB", p317);
    (Some t45, Some "phiBox", p318);
    (Some t45, Some "phiD", p352);
    (Some t45, Some "phiW", p320);
    (Some t45, Some "phiWB", p353);
    (Some t248, None, p354);
    (Some t250, None, p354);
    (Some t251, None, p355);
    (Some t252, None, p356);
    (Some t258, None, p325);
    (Some t261, None, p325);
    (Some t112, None, p357);
    (Some t113, None, p357);
    (Some t116, None, p334);
    (Some t117, None, p335);
    (Some t118, None, p335);
    (Some t240, None, p237);
    (Some t241, None, p237);
    (Some t242, None, p239);
    (Some t263, None, p306);
    (Some t264, None, p307);
    (Some t265, None, p307);
    (Some t142, None, p358);
    (Some t143, None, p359);
    (Some t144, None, p360);
    (Some t145, None, p361);
    (Some t146, None, p361);
    (Some t147, None, p362);
    (Some t148, None, p362);
    (Some t247, None, p339);
    (Some t249, None, p339)]);
  ("VnunuLL", [(Some t243, None, p363);
    (Some t244, None, p363);
    (Some t245, None, p363);
    (Some t246, None, p363);
    (Some t42, None, p364);
    (Some t42, Some "phi", p365);
    (Some t42, Some "phiB", p366);
    (Some t42, Some "phiBox", p367);
    (Some t42, Some "phiD", p368);
    (Some t42, Some "phiW", p369);
    (Some t42, Some "phiWB", p370);
    (Some t229, None, p371);
    (Some t230, None, p372);
    (Some t45, None, p364);
    (Some t45, Some "phi", p365);
    (Some t45, Some "phiB", p366);
    (Some t45, Some "phiBox", p367);
    (Some t45, Some "phiD", p368);
    (Some t45, Some "phiW", p369);
    (Some t45, Some "phiWB", p370);
    (Some t247, None, p371);
    (Some t248, None, p372);
    (Some t249, None, p371);
    (Some t250, None, p372);
    (Some t251, None, p371);
    (Some t252, None, p372);
    (Some t112, None, p373);
    (Some t113, None, p373);
    (Some t117, None, p373);
    (Some t118, None, p373);
    (Some t240, None, p374);
    (Some t241, None, p374);
    (Some t242, None, p375);
    (Some t257, None, p374);
    (Some t258, None, p374);
    (Some t259, None, p375);
    (Some t260, None, p374);
    (Some t261, None, p374);
    (Some t262, None, p375);
    (Some t263, None, p374);
    (Some t264, None, p374);
    (Some t265, None, p375);
    (Some t142, None, p376);
    (Some t143, None, p377);
    (Some t144, None, p377);
    (Some t266, None, p376);
    (Some t116, None, p377);
    (Some t267, None, p377)]);
  ("VnuuLL", [(Some t227, None, p378);
    (Some t228, None, p379);
    (Some t42, None, p380);
    (Some t42, Some "phi", p381);
    (Some t42, Some "phiB", p382);
    (Some t42, Some "phiBox", p383);
    (Some t42, Some "phiD", p384);
    (Some t42, Some "phiW", p385);
    (Some t42, Some "phiWB", p386);
    (Some t42, Some "W", p387);
    (Some t229, None, p388);
    (Some t230, None, p389);
    (Some t48, None, p390);
    (Some t49, None, p391);
    (Some t268, None, p392);
    (Some t67, None, p392);
    (Some t269, None, p392);
    (Some t79, None, p392);
    (Some t112, None, p393);
    (Some t113, None, p393);
    (Some t240, None, p90);
    (Some t241, None, p90);
    (Some t242, None, p92);
    (Some t132, None, p306);
    (Some t133, None, p306);
    (Some t134, None, p307);
    (Some t138, None, p306);
    (Some t139, None, p306);
    (Some t142, None, p394);
    (Some t143, None, p395);
    (Some t144, None, p396);
    (Some t145, None, p397);
    (Some t146, None, p397);
    (Some t147, None, p398);
    (Some t148, None, p398)]);
  ("VuuLL", [(Some t34, None, p399);
    (Some t35, None, p400);
    (Some t40, None, p399);
    (Some t41, None, p400);
    (Some t42, None, p401);
    (Some t42, Some "phi", p402);
    (Some t42, Some "phiB", p403);
    (Some t42, Some "phiBox", p404);
    (Some t42, Some "phiD", p405);
    (Some t42, Some "phiW", p406);
    (Some t42, Some "phiWB", p407);
    (Some t42, Some "W", p408);
    (Some t43, None, p409);
    (Some t44, None, p410);
    (Some t45, None, p411);
    (Some t45, Some "phiD", p412);
    (Some t45, Some "phiWB", p413);
    (Some t149, None, p414);
    (Some t46, None, p415);
    (Some t150, None, p414);
    (Some t47, None, p415);
    (Some t48, None, p409);
    (Some t49, None, p410);
    (Some t56, None, p416);
    (Some t57, None, p416);
    (Some t59, None, p417);
    (Some t60, None, p417);
    (Some t65, None, p417);
    (Some t66, None, p417);
    (Some t268, None, p416);
    (Some t67, None, p416);
    (Some t69, None, p416);
    (Some t70, None, p416);
    (Some t71, None, p417);
    (Some t72, None, p417);
    (Some t75, None, p417);
    (Some t76, None, p417);
    (Some t269, None, p416);
    (Some t79, None, p416);
    (Some t152, None, p181);
    (Some t153, None, p181);
    (Some t112, None, p418);
    (Some t113, None, p418);
    (Some t191, None, p183);
    (Some t192, None, p183);
    (Some t126, None, p419);
    (Some t127, None, p419);
    (Some t128, None, p420);
    (Some t156, None, p197);
    (Some t219, None, p198);
    (Some t220, None, p198);
    (Some t132, None, p419);
    (Some t133, None, p419);
    (Some t134, None, p420);
    (Some t157, None, p197);
    (Some t136, None, p419);
    (Some t137, None, p419);
    (Some t138, None, p419);
    (Some t139, None, p419);
    (Some t142, None, p421);
    (Some t143, None, p422);
    (Some t144, None, p423);
    (Some t145, None, p424);
    (Some t146, None, p424);
    (Some t147, None, p425);
    (Some t148, None, p425)]);
  ("V1ddLR", [(Some t273, None, p426);
    (Some t42, None, p427);
    (Some t42, Some "phi", p428);
    (Some t42, Some "phiB", p429);
    (Some t42, Some "phiBox", p430);
    (Some t42, Some "phiD", p431);
    (Some t42, Some "phiW", p432);
    (Some t42, Some "phiWB", p433);
    (Some t42, Some "W", p434);
    (Some t43, None, p435);
    (Some t44, None, p436);
    (Some t274, None, p437);
    (Some t275, None, p51);
    (Some t57, None, p438);
    (Some t70, None, p438);
    (Some t276, None, p51);
    (Some t169, None, p439);
    (Some t170, None, p440);
    (Some t171, None, p441);
    (Some t176, None, p442);
    (Some t176, Some "phiD", p443);
    (Some t176, Some "phiWB", p444);
    (Some t176, Some "W", p445);
    (Some t277, None, p63);
    (Some t186, None, p439);
    (Some t187, None, p440);
    (Some t188, None, p441);
    (Some t112, None, p446);
    (Some t113, None, p446);
    (Some t278, None, p65);
    (Some t279, None, p66);
    (Some t210, None, p447);
    (Some t211, None, p448);
    (Some t212, None, p449);
    (Some t213, None, p450);
    (Some t214, None, p450);
    (Some t217, None, p451);
    (Some t218, None, p451);
    (Some t126, None, p452);
    (Some t127, None, p453);
    (Some t128, None, p454);
    (Some t136, None, p452);
    (Some t137, None, p453);
    (Some t280, None, p87);
    (Some t281, None, p88);
    (Some t221, None, p455);
    (Some t224, None, p455);
    (Some t142, None, p456);
    (Some t143, None, p457);
    (Some t144, None, p458);
    (Some t145, None, p459);
    (Some t146, None, p459);
    (Some t147, None, p460);
    (Some t148, None, p460)]);
  ("V1duLR", [(Some t282, None, p461);
    (Some t42, None, p462);
    (Some t42, Some "phi", p463);
    (Some t42, Some "phiB", p464);
    (Some t42, Some "phiBox", p465);
    (Some t42, Some "phiD", p466);
    (Some t42, Some "phiW", p467);
    (Some t42, Some "phiWB", p468);
    (Some t42, Some "W", p469);
    (Some t43, None, p470);
    (Some t44, None, p471);
    (Some t283, None, p472);
    (Some t284, None, p51);
    (Some t57, None, p473);
    (Some t285, None, p474);
    (Some t70, None, p473);
    (Some t286, None, p51);
    (Some t287, None, p474);
    (Some t169, None, p475);
    (Some t170, None, p476);
    (Some t171, None, p477);
    (Some t176, None, p478);
    (Some t176, Some "phiD", p479);
    (Some t176, Some "phiWB", p61);
    (Some t176, Some "W", p62);
    (Some t288, None, p63);
    (Some t289, None, p66);
    (Some t290, None, p480);
    (Some t186, None, p475);
    (Some t187, None, p476);
    (Some t188, None, p477);
    (Some t112, None, p481);
    (Some t113, None, p481);
    (Some t291, None, p480);
    (Some t292, None, p65);
    (Some t293, None, p66);
    (Some t210, None, p482);
    (Some t211, None, p483);
    (Some t212, None, p484);
    (Some t213, None, p85);
    (Some t214, None, p85);
    (Some t217, None, p86);
    (Some t218, None, p86);
    (Some t126, None, p485);
    (Some t127, None, p486);
    (Some t128, None, p487);
    (Some t294, None, p88);
    (Some t136, None, p485);
    (Some t137, None, p486);
    (Some t295, None, p87);
    (Some t296, None, p88);
    (Some t221, None, p93);
    (Some t224, None, p93);
    (Some t142, None, p488);
    (Some t143, None, p489);
    (Some t144, None, p490);
    (Some t145, None, p491);
    (Some t146, None, p491);
    (Some t147, None, p492);
    (Some t148, None, p492)]);
  ("V1udduLR", [(Some t297, None, p493)]);
  ("V1udLR", [(Some t273, None, p494);
    (Some t42, None, p495);
    (Some t42, Some "phi", p496);
    (Some t42, Some "phiB", p497);
    (Some t42, Some "phiBox", p498);
    (Some t42, Some "phiD", p499);
    (Some t42, Some "phiW", p500);
    (Some t42, Some "phiWB", p501);
    (Some t42, Some "W", p502);
    (Some t43, None, p503);
    (Some t44, None, p504);
    (Some t274, None, p505);
    (Some t56, None, p506);
    (Some t57, None, p506);
    (Some t69, None, p506);
    (Some t70, None, p506);
    (Some t112, None, p507);
    (Some t113, None, p507);
    (Some t126, None, p452);
    (Some t127, None, p452);
    (Some t128, None, p454);
    (Some t136, None, p452);
    (Some t137, None, p452);
    (Some t280, None, p90);
    (Some t281, None, p92);
    (Some t142, None, p508);
    (Some t143, None, p509);
    (Some t144, None, p510);
    (Some t145, None, p511);
    (Some t146, None, p511);
    (Some t147, None, p512);
    (Some t148, None, p512)]);
  ("V1uuLR", [(Some t282, None, p513);
    (Some t42, None, p514);
    (Some t42, Some "phi", p515);
    (Some t42, Some "phiB", p516);
    (Some t42, Some "phiBox", p517);
    (Some t42, Some "phiD", p518);
    (Some t42, Some "phiW", p519);
    (Some t42, Some "phiWB", p520);
    (Some t42, Some "W", p521);
    (Some t43, None, p522);
    (Some t44, None, p523);
    (Some t283, None, p524);
    (Some t56, None, p525);
    (Some t57, None, p525);
    (Some t285, None, p526);
    (Some t69, None, p525);
    (Some t70, None, p525);
    (Some t287, None, p526);
    (Some t112, None, p527);
    (Some t113, None, p527);
    (Some t126, None, p485);
    (Some t127, None, p485);
    (Some t128, None, p487);
    (Some t294, None, p92);
    (Some t136, None, p485);
    (Some t137, None, p485);
    (Some t295, None, p90);
    (Some t296, None, p92);
    (Some t142, None, p528);
    (Some t143, None, p529);
    (Some t144, None, p530);
    (Some t145, None, p531);
    (Some t146, None, p531);
    (Some t147, None, p532);
    (Some t148, None, p532)]);
  ("V8ddLR", [(Some t298, None, p426);
    (Some t42, None, p533);
    (Some t42, Some "phiD", p534);
    (Some t42, Some "phiWB", p535);
    (Some t43, None, p536);
    (Some t44, None, p537);
    (Some t274, None, p538);
    (Some t299, None, p51);
    (Some t57, None, p122);
    (Some t70, None, p122);
    (Some t300, None, p51);
    (Some t170, None, p133);
    (Some t171, None, p134);
    (Some t176, None, p123);
    (Some t187, None, p133);
    (Some t188, None, p134);
    (Some t152, None, p135);
    (Some t153, None, p135);
    (Some t301, None, p65);
    (Some t302, None, p66);
    (Some t215, None, p138);
    (Some t216, None, p138);
    (Some t156, None, p139);
    (Some t303, None, p139);
    (Some t304, None, p139);
    (Some t222, None, p141);
    (Some t225, None, p141)]);
  ("V8duLR", [(Some t305, None, p461);
    (Some t42, None, p539);
    (Some t42, Some "phiD", p540);
    (Some t42, Some "phiWB", p541);
    (Some t43, None, p542);
    (Some t44, None, p543);
    (Some t283, None, p544);
    (Some t306, None, p51);
    (Some t57, None, p122);
    (Some t285, None, p118);
    (Some t70, None, p122);
    (Some t307, None, p51);
    (Some t287, None, p118);
    (Some t170, None, p133);
    (Some t171, None, p134);
    (Some t176, None, p123);
    (Some t290, None, p545);
    (Some t187, None, p133);
    (Some t188, None, p134);
    (Some t152, None, p135);
    (Some t153, None, p135);
    (Some t291, None, p545);
    (Some t308, None, p65);
    (Some t215, None, p138);
    (Some t216, None, p138);
    (Some t156, None, p139);
    (Some t309, None, p139);
    (Some t222, None, p141);
    (Some t225, None, p141)]);
  ("V8udduLR", [(Some t297, None, p546)]);
  ("V8udLR", [(Some t298, None, p494);
    (Some t42, None, p547);
    (Some t42, Some "phiD", p548);
    (Some t42, Some "phiWB", p549);
    (Some t43, None, p550);
    (Some t44, None, p551);
    (Some t274, None, p552);
    (Some t56, None, p118);
    (Some t57, None, p118);
    (Some t69, None, p118);
    (Some t70, None, p118);
    (Some t152, None, p135);
    (Some t153, None, p135);
    (Some t156, None, p139);
    (Some t303, None, p139);
    (Some t304, None, p139)]);
  ("V8uuLR", [(Some t305, None, p513);
    (Some t42, None, p553);
    (Some t42, Some "phiD", p554);
    (Some t42, Some "phiWB", p555);
    (Some t43, None, p556);
    (Some t44, None, p557);
    (Some t283, None, p558);
    (Some t56, None, p118);
    (Some t57, None, p118);
    (Some t285, None, p118);
    (Some t69, None, p118);
    (Some t70, None, p118);
    (Some t287, None, p118);
    (Some t152, None, p135);
    (Some t153, None, p135);
    (Some t156, None, p139);
    (Some t309, None, p139)]);
  ("VdeLR", [(Some t310, None, p559);
    (Some t42, None, p560);
    (Some t42, Some "phi", p561);
    (Some t42, Some "phiB", p562);
    (Some t42, Some "phiBox", p563);
    (Some t42, Some "phiD", p564);
    (Some t42, Some "phiW", p565);
    (Some t42, Some "phiWB", p566);
    (Some t42, Some "W", p567);
    (Some t43, None, p568);
    (Some t44, None, p569);
    (Some t311, None, p570);
    (Some t312, None, p51);
    (Some t57, None, p571);
    (Some t70, None, p571);
    (Some t313, None, p51);
    (Some t169, None, p572);
    (Some t170, None, p573);
    (Some t171, None, p574);
    (Some t176, None, p575);
    (Some t176, Some "phiD", p576);
    (Some t176, Some "phiWB", p223);
    (Some t176, Some "W", p224);
    (Some t314, None, p63);
    (Some t315, None, p66);
    (Some t186, None, p572);
    (Some t187, None, p573);
    (Some t188, None, p574);
    (Some t112, None, p577);
    (Some t113, None, p577);
    (Some t316, None, p65);
    (Some t210, None, p578);
    (Some t211, None, p579);
    (Some t212, None, p580);
    (Some t213, None, p234);
    (Some t214, None, p234);
    (Some t217, None, p235);
    (Some t218, None, p235);
    (Some t126, None, p581);
    (Some t127, None, p582);
    (Some t128, None, p583);
    (Some t317, None, p88);
    (Some t136, None, p581);
    (Some t137, None, p582);
    (Some t318, None, p87);
    (Some t221, None, p240);
    (Some t224, None, p240);
    (Some t142, None, p584);
    (Some t143, None, p585);
    (Some t144, None, p586);
    (Some t145, None, p587);
    (Some t146, None, p587);
    (Some t147, None, p588);
    (Some t148, None, p588)]);
  ("VedLR", [(Some t319, None, p589);
    (Some t42, None, p590);
    (Some t42, Some "phi", p591);
    (Some t42, Some "phiB", p592);
    (Some t42, Some "phiBox", p593);
    (Some t42, Some "phiD", p594);
    (Some t42, Some "phiW", p595);
    (Some t42, Some "phiWB", p596);
    (Some t42, Some "W", p597);
    (Some t229, None, p598);
    (Some t230, None, p599);
    (Some t274, None, p600);
    (Some t112, None, p601);
    (Some t113, None, p601);
    (Some t240, None, p452);
    (Some t241, None, p453);
    (Some t242, None, p454);
    (Some t280, None, p237);
    (Some t281, None, p239);
    (Some t142, None, p602);
    (Some t143, None, p603);
    (Some t144, None, p604);
    (Some t145, None, p605);
    (Some t146, None, p605);
    (Some t147, None, p606);
    (Some t148, None, p606)]);
  ("VeeLR", [(Some t320, None, p607);
    (Some t42, None, p608);
    (Some t42, Some "phi", p609);
    (Some t42, Some "phiB", p610);
    (Some t42, Some "phiBox", p611);
    (Some t42, Some "phiD", p612);
    (Some t42, Some "phiW", p613);
    (Some t42, Some "phiWB", p614);
    (Some t42, Some "W", p615);
    (Some t229, None, p616);
    (Some t230, None, p617);
    (Some t311, None, p618);
    (Some t112, None, p619);
    (Some t113, None, p619);
    (Some t240, None, p581);
    (Some t241, None, p582);
    (Some t242, None, p583);
    (Some t317, None, p239);
    (Some t318, None, p237);
    (Some t142, None, p620);
    (Some t143, None, p621);
    (Some t144, None, p622);
    (Some t145, None, p623);
    (Some t146, None, p623);
    (Some t147, None, p624);
    (Some t148, None, p624)]);
  ("VeuLR", [(Some t321, None, p625);
    (Some t42, None, p626);
    (Some t42, Some "phi", p627);
    (Some t42, Some "phiB", p628);
    (Some t42, Some "phiBox", p629);
    (Some t42, Some "phiD", p630);
    (Some t42, Some "phiW", p631);
    (Some t42, Some "phiWB", p632);
    (Some t42, Some "W", p633);
    (Some t229, None, p634);
    (Some t230, None, p635);
    (Some t283, None, p636);
    (Some t285, None, p637);
    (Some t287, None, p637);
    (Some t112, None, p638);
    (Some t113, None, p638);
    (Some t240, None, p485);
    (Some t241, None, p486);
    (Some t242, None, p487);
    (Some t294, None, p239);
    (Some t295, None, p237);
    (Some t296, None, p239);
    (Some t142, None, p639);
    (Some t143, None, p640);
    (Some t144, None, p641);
    (Some t145, None, p642);
    (Some t146, None, p642);
    (Some t147, None, p643);
    (Some t148, None, p643)]);
  ("VnudLR", [(Some t319, None, p644);
    (Some t42, None, p645);
    (Some t42, Some "phi", p646);
    (Some t42, Some "phiB", p647);
    (Some t42, Some "phiBox", p648);
    (Some t42, Some "phiD", p649);
    (Some t42, Some "phiW", p650);
    (Some t42, Some "phiWB", p651);
    (Some t42, Some "W", p296);
    (Some t229, None, p652);
    (Some t230, None, p653);
    (Some t274, None, p654);
    (Some t112, None, p655);
    (Some t113, None, p655);
    (Some t240, None, p452);
    (Some t241, None, p452);
    (Some t242, None, p454);
    (Some t280, None, p306);
    (Some t281, None, p307);
    (Some t142, None, p656);
    (Some t143, None, p657);
    (Some t144, None, p658);
    (Some t145, None, p311);
    (Some t146, None, p311);
    (Some t147, None, p312);
    (Some t148, None, p312)]);
  ("VnueduLR", [(Some t297, None, p659)]);
  ("VnueLR", [(Some t320, None, p660);
    (Some t42, None, p661);
    (Some t42, Some "phi", p662);
    (Some t42, Some "phiB", p663);
    (Some t42, Some "phiBox", p664);
    (Some t42, Some "phiD", p665);
    (Some t42, Some "phiW", p666);
    (Some t42, Some "phiWB", p667);
    (Some t42, Some "W", p348);
    (Some t229, None, p668);
    (Some t230, None, p669);
    (Some t311, None, p670);
    (Some t112, None, p671);
    (Some t113, None, p671);
    (Some t240, None, p581);
    (Some t241, None, p581);
    (Some t242, None, p583);
    (Some t317, None, p307);
    (Some t318, None, p306);
    (Some t142, None, p672);
    (Some t143, None, p673);
    (Some t144, None, p674);
    (Some t145, None, p361);
    (Some t146, None, p361);
    (Some t147, None, p362);
    (Some t148, None, p362)]);
  ("VnuuLR", [(Some t321, None, p675);
    (Some t42, None, p676);
    (Some t42, Some "phi", p677);
    (Some t42, Some "phiB", p678);
    (Some t42, Some "phiBox", p679);
    (Some t42, Some "phiD", p680);
    (Some t42, Some "phiW", p681);
    (Some t42, Some "phiWB", p682);
    (Some t42, Some "W", p387);
    (Some t229, None, p683);
    (Some t230, None, p684);
    (Some t283, None, p685);
    (Some t285, None, p686);
    (Some t287, None, p686);
    (Some t112, None, p687);
    (Some t113, None, p687);
    (Some t240, None, p485);
    (Some t241, None, p485);
    (Some t242, None, p487);
    (Some t294, None, p307);
    (Some t295, None, p306);
    (Some t296, None, p307);
    (Some t142, None, p688);
    (Some t143, None, p689);
    (Some t144, None, p690);
    (Some t145, None, p397);
    (Some t146, None, p397);
    (Some t147, None, p398);
    (Some t148, None, p398)]);
  ("VueLR", [(Some t310, None, p691);
    (Some t42, None, p692);
    (Some t42, Some "phi", p693);
    (Some t42, Some "phiB", p694);
    (Some t42, Some "phiBox", p695);
    (Some t42, Some "phiD", p696);
    (Some t42, Some "phiW", p697);
    (Some t42, Some "phiWB", p698);
    (Some t42, Some "W", p699);
    (Some t43, None, p700);
    (Some t44, None, p701);
    (Some t311, None, p702);
    (Some t56, None, p703);
    (Some t57, None, p703);
    (Some t69, None, p703);
    (Some t70, None, p703);
    (Some t112, None, p704);
    (Some t113, None, p704);
    (Some t126, None, p581);
    (Some t127, None, p581);
    (Some t128, None, p583);
    (Some t317, None, p92);
    (Some t136, None, p581);
    (Some t137, None, p581);
    (Some t318, None, p90);
    (Some t142, None, p705);
    (Some t143, None, p706);
    (Some t144, None, p707);
    (Some t145, None, p708);
    (Some t146, None, p708);
    (Some t147, None, p709);
    (Some t148, None, p709)]);
  ("S1udduRR", [(Some t322, None, p710);
    (Some t323, None, p711);
    (Some t324, None, p712);
    (Some t325, None, p713);
    (Some t326, None, p714);
    (Some t327, None, p715)]);
  ("S1udRR", [(Some t328, None, p716);
    (Some t329, None, p717);
    (Some t330, None, p718);
    (Some t331, None, p13);
    (Some t332, None, p719);
    (Some t333, None, p720)]);
  ("S8udduRR", [(Some t322, None, p721);
    (Some t323, None, p722);
    (Some t334, None, p712);
    (Some t335, None, p713);
    (Some t326, None, p15);
    (Some t327, None, p719)]);
  ("S8udRR", [(Some t336, None, p716);
    (Some t329, None, p723);
    (Some t330, None, p724);
    (Some t337, None, p13);
    (Some t332, None, p725);
    (Some t333, None, p714)]);
  ("SeuRR", [(Some t338, None, p726);
    (Some t339, None, p727)]);
  ("SnueduRR", [(Some t338, None, p728);
    (Some t339, None, p729);
    (Some t340, None, p51);
    (Some t341, None, p730)]);
  ("TeuRR", [(Some t338, None, p731);
    (Some t339, None, p732)]);
  ("TnueduRR", [(Some t338, None, p733);
    (Some t339, None, p734);
    (Some t341, None, p735);
    (Some t340, None, p736)]);
  ("SedRL", [(Some t342, None, p737);
    (Some t343, None, p51)]);
  ("SnueduRL", [(Some t342, None, p738)]);
  ("V1udRR", [(Some t344, None, p739);
    (Some t42, None, p740);
    (Some t42, Some "phi", p741);
    (Some t42, Some "phiB", p742);
    (Some t42, Some "phiBox", p743);
    (Some t42, Some "phiD", p744);
    (Some t42, Some "phiW", p745);
    (Some t42, Some "phiWB", p746);
    (Some t42, Some "W", p747);
    (Some t345, None, p748);
    (Some t274, None, p749);
    (Some t346, None, p750);
    (Some t347, None, p750);
    (Some t348, None, p454);
    (Some t349, None, p452);
    (Some t350, None, p454);
    (Some t280, None, p485);
    (Some t281, None, p487);
    (Some t142, None, p751);
    (Some t143, None, p752);
    (Some t144, None, p753);
    (Some t145, None, p754);
    (Some t146, None, p754);
    (Some t112, None, p755);
    (Some t113, None, p755);
    (Some t147, None, p756);
    (Some t148, None, p756)]);
  ("V8udRR", [(Some t351, None, p739);
    (Some t42, None, p757);
    (Some t42, Some "phiD", p758);
    (Some t42, Some "phiWB", p759);
    (Some t345, None, p760);
    (Some t274, None, p761);
    (Some t346, None, p118);
    (Some t347, None, p118);
    (Some t152, None, p135);
    (Some t153, None, p135);
    (Some t352, None, p139);
    (Some t303, None, p139);
    (Some t304, None, p139)]);
  ("VddRR", [(Some t353, None, p762);
    (Some t354, None, p762);
    (Some t42, None, p763);
    (Some t42, Some "phi", p764);
    (Some t42, Some "phiB", p765);
    (Some t42, Some "phiBox", p766);
    (Some t42, Some "phiD", p767);
    (Some t42, Some "phiW", p768);
    (Some t42, Some "phiWB", p769);
    (Some t42, Some "W", p770);
    (Some t355, None, p771);
    (Some t45, None, p772);
    (Some t45, Some "phiD", p773);
    (Some t45, Some "phiWB", p774);
    (Some t356, None, p775);
    (Some t357, None, p775);
    (Some t274, None, p771);
    (Some t145, None, p776);
    (Some t146, None, p776);
    (Some t152, None, p181);
    (Some t153, None, p181);
    (Some t112, None, p777);
    (Some t113, None, p777);
    (Some t191, None, p183);
    (Some t192, None, p183);
    (Some t358, None, p778);
    (Some t359, None, p197);
    (Some t360, None, p779);
    (Some t361, None, p197);
    (Some t362, None, p198);
    (Some t363, None, p198);
    (Some t364, None, p198);
    (Some t365, None, p198);
    (Some t280, None, p778);
    (Some t303, None, p197);
    (Some t281, None, p779);
    (Some t304, None, p197);
    (Some t142, None, p780);
    (Some t143, None, p781);
    (Some t144, None, p782);
    (Some t147, None, p783);
    (Some t148, None, p783)]);
  ("VedRR", [(Some t366, None, p784);
    (Some t42, None, p785);
    (Some t42, Some "phi", p786);
    (Some t42, Some "phiB", p787);
    (Some t42, Some "phiBox", p788);
    (Some t42, Some "phiD", p789);
    (Some t42, Some "phiW", p790);
    (Some t42, Some "phiWB", p791);
    (Some t42, Some "W", p792);
    (Some t367, None, p793);
    (Some t274, None, p794);
    (Some t112, None, p795);
    (Some t113, None, p795);
    (Some t368, None, p454);
    (Some t369, None, p452);
    (Some t280, None, p581);
    (Some t281, None, p583);
    (Some t142, None, p796);
    (Some t143, None, p797);
    (Some t144, None, p798);
    (Some t145, None, p799);
    (Some t146, None, p799);
    (Some t147, None, p800);
    (Some t148, None, p800)]);
  ("VeeRR", [(Some t370, None, p801);
    (Some t371, None, p801);
    (Some t372, None, p801);
    (Some t373, None, p801);
    (Some t42, None, p802);
    (Some t42, Some "phi", p803);
    (Some t42, Some "phiB", p804);
    (Some t42, Some "phiBox", p805);
    (Some t42, Some "phiD", p806);
    (Some t42, Some "phiW", p807);
    (Some t42, Some "phiWB", p808);
    (Some t42, Some "W", p809);
    (Some t367, None, p810);
    (Some t45, None, p802);
    (Some t45, Some "phi", p803);
    (Some t45, Some "phiB", p804);
    (Some t45, Some "phiBox", p805);
    (Some t45, Some "phiD", p806);
    (Some t45, Some "phiW", p807);
    (Some t45, Some "phiWB", p808);
    (Some t45, Some "W", p809);
    (Some t374, None, p810);
    (Some t375, None, p810);
    (Some t311, None, p810);
    (Some t145, None, p811);
    (Some t146, None, p811);
    (Some t112, None, p812);
    (Some t113, None, p812);
    (Some t147, None, p813);
    (Some t148, None, p813);
    (Some t253, None, p811);
    (Some t254, None, p811);
    (Some t117, None, p812);
    (Some t118, None, p812);
    (Some t255, None, p813);
    (Some t256, None, p813);
    (Some t368, None, p814);
    (Some t376, None, p814);
    (Some t377, None, p814);
    (Some t317, None, p814);
    (Some t369, None, p815);
    (Some t378, None, p815);
    (Some t379, None, p815);
    (Some t318, None, p815);
    (Some t142, None, p816);
    (Some t143, None, p817);
    (Some t144, None, p818);
    (Some t266, None, p816);
    (Some t116, None, p817);
    (Some t267, None, p818)]);
  ("VeuRR", [(Some t380, None, p819);
    (Some t42, None, p820);
    (Some t42, Some "phi", p821);
    (Some t42, Some "phiB", p822);
    (Some t42, Some "phiBox", p823);
    (Some t42, Some "phiD", p824);
    (Some t42, Some "phiW", p825);
    (Some t42, Some "phiWB", p826);
    (Some t42, Some "W", p827);
    (Some t367, None, p828);
    (Some t283, None, p829);
    (Some t285, None, p830);
    (Some t287, None, p830);
    (Some t368, None, p487);
    (Some t294, None, p583);
    (Some t369, None, p485);
    (Some t295, None, p581);
    (Some t296, None, p583);
    (Some t142, None, p831);
    (Some t143, None, p832);
    (Some t144, None, p833);
    (Some t145, None, p834);
    (Some t146, None, p834);
    (Some t112, None, p835);
    (Some t113, None, p835);
    (Some t147, None, p836);
    (Some t148, None, p836)]);
  ("VuuRR", [(Some t381, None, p837);
    (Some t382, None, p837);
    (Some t42, None, p838);
    (Some t42, Some "phi", p839);
    (Some t42, Some "phiB", p840);
    (Some t42, Some "phiBox", p841);
    (Some t42, Some "phiD", p842);
    (Some t42, Some "phiW", p843);
    (Some t42, Some "phiWB", p844);
    (Some t42, Some "W", p845);
    (Some t345, None, p846);
    (Some t45, None, p847);
    (Some t45, Some "phiD", p848);
    (Some t45, Some "phiWB", p849);
    (Some t383, None, p850);
    (Some t384, None, p850);
    (Some t283, None, p846);
    (Some t346, None, p851);
    (Some t385, None, p417);
    (Some t386, None, p417);
    (Some t285, None, p851);
    (Some t347, None, p851);
    (Some t387, None, p417);
    (Some t388, None, p417);
    (Some t287, None, p851);
    (Some t152, None, p181);
    (Some t153, None, p181);
    (Some t191, None, p183);
    (Some t192, None, p183);
    (Some t348, None, p852);
    (Some t294, None, p852);
    (Some t349, None, p453);
    (Some t352, None, p197);
    (Some t350, None, p852);
    (Some t389, None, p198);
    (Some t390, None, p198);
    (Some t295, None, p453);
    (Some t309, None, p197);
    (Some t296, None, p852);
    (Some t142, None, p752);
    (Some t143, None, p751);
    (Some t144, None, p853);
    (Some t145, None, p854);
    (Some t146, None, p854);
    (Some t112, None, p855);
    (Some t113, None, p855);
    (Some t147, None, p856);
    (Some t148, None, p856)]);
  ("egamma", [(Some t391, None, p857);
    (Some t392, None, p858);
    (Some t393, None, p859);
    (Some t393, Some "phiB", p860);
    (Some t393, Some "phiBtilde", p861);
    (Some t393, Some "phiD", p862);
    (Some t393, Some "phiW", p863);
    (Some t393, Some "phiWB", p864);
    (Some t393, Some "phiWtilde", p865);
    (Some t393, Some "phiWtildeB", p866);
    (Some t393, Some "W", p867);
    (Some t393, Some "Wtilde", p868);
    (Some t394, None, p869);
    (Some t395, None, p870);
    (Some t396, None, p871);
    (Some t397, None, p872)]);
  ("uG", [(Some t398, None, p873);
    (Some t399, None, p874);
    (Some t400, None, p875);
    (Some t401, None, p876);
    (Some t401, Some "phiD", p877);
    (Some t401, Some "phiG", p878);
    (Some t401, Some "phiGtilde", p879);
    (Some t401, Some "phiWB", p880);
    (Some t402, None, p881);
    (Some t403, None, p882);
    (Some t404, None, p883);
    (Some t405, None, p884);
    (Some t406, None, p885)]);
  ("ugamma", [(Some t398, None, p886);
    (Some t400, None, p887);
    (Some t401, None, p888);
    (Some t401, Some "phiB", p889);
    (Some t401, Some "phiBtilde", p890);
    (Some t401, Some "phiD", p891);
    (Some t401, Some "phiW", p892);
    (Some t401, Some "phiWB", p893);
    (Some t401, Some "phiWtilde", p894);
    (Some t401, Some "phiWtildeB", p895);
    (Some t401, Some "W", p896);
    (Some t401, Some "Wtilde", p897);
    (Some t402, None, p898);
    (Some t403, None, p899);
    (Some t404, None, p900);
    (Some t407, None, p901);
    (Some t405, None, p902);
    (Some t406, None, p903)]);
  ("dgamma", [(Some t408, None, p904);
    (Some t408, Some "phiB", p905);
    (Some t408, Some "phiBtilde", p906);
    (Some t408, Some "phiD", p907);
    (Some t408, Some "phiW", p908);
    (Some t408, Some "phiWB", p909);
    (Some t408, Some "phiWtilde", p910);
    (Some t408, Some "phiWtildeB", p911);
    (Some t408, Some "W", p867);
    (Some t408, Some "Wtilde", p868);
    (Some t409, None, p912);
    (Some t410, None, p913);
    (Some t411, None, p914);
    (Some t412, None, p915);
    (Some t413, None, p916);
    (Some t414, None, p917);
    (Some t415, None, p918);
    (Some t415, Some "phiD", p919);
    (Some t415, Some "phiWB", p920);
    (Some t415, Some "phiWtildeB", p921);
    (Some t415, Some "W", p922);
    (Some t415, Some "Wtilde", p923);
    (Some t416, None, p924);
    (Some t417, None, p925);
    (Some t418, None, p926);
    (Some t419, None, p927);
    (Some t420, None, p928);
    (Some t421, None, p929);
    (Some t422, None, p930);
    (Some t423, None, p928);
    (Some t424, None, p931);
    (Some t425, None, p932);
    (Some t426, None, p933);
    (Some t427, None, p934);
    (Some t428, None, p935)]);
  ("dG", [(Some t408, None, p936);
    (Some t408, Some "phiD", p937);
    (Some t408, Some "phiG", p878);
    (Some t408, Some "phiGtilde", p879);
    (Some t408, Some "phiWB", p938);
    (Some t409, None, p939);
    (Some t410, None, p940);
    (Some t429, None, p941);
    (Some t411, None, p942);
    (Some t430, None, p943);
    (Some t413, None, p944);
    (Some t414, None, p945);
    (Some t415, None, p946);
    (Some t416, None, p947);
    (Some t417, None, p948);
    (Some t431, None, p949);
    (Some t420, None, p950);
    (Some t432, None, p951);
    (Some t422, None, p952);
    (Some t423, None, p950);
    (Some t433, None, p953);
    (Some t425, None, p954);
    (Some t426, None, p955);
    (Some t427, None, p956)])].
(* smeft_loop.py:120-130 *)
Definition loop_zero : list string := ["SuudLR"; "SdduRL"; "SuudRL"; "S1ddRR"; "S1uuRR"; "S8ddRR"; "S8uuRR"; "SedRR"; "SeeRR"; "TedRR"; "SeuRL"].
