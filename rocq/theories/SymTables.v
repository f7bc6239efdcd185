(* Generated by tools/gen_sym.py from the text of wilson/util/common.py; one list
   element per Python statement, in order. *)
From Coq Require Import List ZArith QArith.
From Verif Require Import SymModel.
Import ListNotations.
Local Open Scope Q_scope.
Local Open Scope nat_scope.

(* EFTutil.symmetrize_2, wilson/util/common.py:324-332 *)
Definition symmetrize_2 : list asgn :=
  [ SetConj [1;0] [0;1];
    SetConj [2;0] [0;2];
    SetConj [2;1] [1;2];
    SetIm [0;0] [];
    SetIm [1;1] [];
    SetIm [2;2] [] ].

(* EFTutil.symmetrize_4, wilson/util/common.py:335-454 *)
Definition symmetrize_4 : list asgn :=
  [ SetRe [0;0;1;0] [((1#1),[0;0;0;1])];
    SetRe [0;0;2;0] [((1#1),[0;0;0;2])];
    SetRe [0;0;2;1] [((1#1),[0;0;1;2])];
    SetRe [0;1;0;0] [((1#1),[0;0;0;1])];
    SetRe [0;2;0;0] [((1#1),[0;0;0;2])];
    SetRe [0;2;0;1] [((1#1),[0;1;0;2])];
    SetRe [0;2;1;0] [((1#1),[0;1;2;0])];
    SetRe [1;0;0;0] [((1#1),[0;0;0;1])];
    SetRe [1;0;0;1] [((1#1),[0;1;1;0])];
    SetRe [1;0;0;2] [((1#1),[0;1;2;0])];
    SetRe [1;0;1;0] [((1#1),[0;1;0;1])];
    SetRe [1;0;1;1] [((1#1),[0;1;1;1])];
    SetRe [1;0;1;2] [((1#1),[0;1;2;1])];
    SetRe [1;0;2;0] [((1#1),[0;1;0;2])];
    SetRe [1;0;2;1] [((1#1),[0;1;1;2])];
    SetRe [1;0;2;2] [((1#1),[0;1;2;2])];
    SetRe [1;1;0;0] [((1#1),[0;0;1;1])];
    SetRe [1;1;0;1] [((1#1),[0;1;1;1])];
    SetRe [1;1;0;2] [((1#1),[0;2;1;1])];
    SetRe [1;1;1;0] [((1#1),[0;1;1;1])];
    SetRe [1;1;2;0] [((1#1),[0;2;1;1])];
    SetRe [1;1;2;1] [((1#1),[1;1;1;2])];
    SetRe [1;2;0;0] [((1#1),[0;0;1;2])];
    SetRe [1;2;0;1] [((1#1),[0;1;1;2])];
    SetRe [1;2;0;2] [((1#1),[0;2;1;2])];
    SetRe [1;2;1;0] [((1#1),[0;1;2;1])];
    SetRe [1;2;1;1] [((1#1),[1;1;1;2])];
    SetRe [1;2;2;0] [((1#1),[0;2;2;1])];
    SetRe [2;0;0;0] [((1#1),[0;0;0;2])];
    SetRe [2;0;0;1] [((1#1),[0;1;2;0])];
    SetRe [2;0;0;2] [((1#1),[0;2;2;0])];
    SetRe [2;0;1;0] [((1#1),[0;1;0;2])];
    SetRe [2;0;1;1] [((1#1),[0;2;1;1])];
    SetRe [2;0;1;2] [((1#1),[0;2;2;1])];
    SetRe [2;0;2;0] [((1#1),[0;2;0;2])];
    SetRe [2;0;2;1] [((1#1),[0;2;1;2])];
    SetRe [2;0;2;2] [((1#1),[0;2;2;2])];
    SetRe [2;1;0;0] [((1#1),[0;0;1;2])];
    SetRe [2;1;0;1] [((1#1),[0;1;2;1])];
    SetRe [2;1;0;2] [((1#1),[0;2;2;1])];
    SetRe [2;1;1;0] [((1#1),[0;1;1;2])];
    SetRe [2;1;1;1] [((1#1),[1;1;1;2])];
    SetRe [2;1;1;2] [((1#1),[1;2;2;1])];
    SetRe [2;1;2;0] [((1#1),[0;2;1;2])];
    SetRe [2;1;2;1] [((1#1),[1;2;1;2])];
    SetRe [2;1;2;2] [((1#1),[1;2;2;2])];
    SetRe [2;2;0;0] [((1#1),[0;0;2;2])];
    SetRe [2;2;0;1] [((1#1),[0;1;2;2])];
    SetRe [2;2;0;2] [((1#1),[0;2;2;2])];
    SetRe [2;2;1;0] [((1#1),[0;1;2;2])];
    SetRe [2;2;1;1] [((1#1),[1;1;2;2])];
    SetRe [2;2;1;2] [((1#1),[1;2;2;2])];
    SetRe [2;2;2;0] [((1#1),[0;2;2;2])];
    SetRe [2;2;2;1] [((1#1),[1;2;2;2])];
    SetIm [0;0;0;0] [];
    SetIm [0;0;1;0] [((-1#1),[0;0;0;1])];
    SetIm [0;0;1;1] [];
    SetIm [0;0;2;0] [((-1#1),[0;0;0;2])];
    SetIm [0;0;2;1] [((-1#1),[0;0;1;2])];
    SetIm [0;0;2;2] [];
    SetIm [0;1;0;0] [((1#1),[0;0;0;1])];
    SetIm [0;1;1;0] [];
    SetIm [0;2;0;0] [((1#1),[0;0;0;2])];
    SetIm [0;2;0;1] [((1#1),[0;1;0;2])];
    SetIm [0;2;1;0] [((-1#1),[0;1;2;0])];
    SetIm [0;2;2;0] [];
    SetIm [1;0;0;0] [((-1#1),[0;0;0;1])];
    SetIm [1;0;0;1] [];
    SetIm [1;0;0;2] [((-1#1),[0;1;2;0])];
    SetIm [1;0;1;0] [((-1#1),[0;1;0;1])];
    SetIm [1;0;1;1] [((-1#1),[0;1;1;1])];
    SetIm [1;0;1;2] [((-1#1),[0;1;2;1])];
    SetIm [1;0;2;0] [((-1#1),[0;1;0;2])];
    SetIm [1;0;2;1] [((-1#1),[0;1;1;2])];
    SetIm [1;0;2;2] [((-1#1),[0;1;2;2])];
    SetIm [1;1;0;0] [];
    SetIm [1;1;0;1] [((1#1),[0;1;1;1])];
    SetIm [1;1;0;2] [((1#1),[0;2;1;1])];
    SetIm [1;1;1;0] [((-1#1),[0;1;1;1])];
    SetIm [1;1;1;1] [];
    SetIm [1;1;2;0] [((-1#1),[0;2;1;1])];
    SetIm [1;1;2;1] [((-1#1),[1;1;1;2])];
    SetIm [1;1;2;2] [];
    SetIm [1;2;0;0] [((1#1),[0;0;1;2])];
    SetIm [1;2;0;1] [((1#1),[0;1;1;2])];
    SetIm [1;2;0;2] [((1#1),[0;2;1;2])];
    SetIm [1;2;1;0] [((-1#1),[0;1;2;1])];
    SetIm [1;2;1;1] [((1#1),[1;1;1;2])];
    SetIm [1;2;2;0] [((-1#1),[0;2;2;1])];
    SetIm [1;2;2;1] [];
    SetIm [2;0;0;0] [((-1#1),[0;0;0;2])];
    SetIm [2;0;0;1] [((1#1),[0;1;2;0])];
    SetIm [2;0;0;2] [];
    SetIm [2;0;1;0] [((-1#1),[0;1;0;2])];
    SetIm [2;0;1;1] [((-1#1),[0;2;1;1])];
    SetIm [2;0;1;2] [((-1#1),[0;2;2;1])];
    SetIm [2;0;2;0] [((-1#1),[0;2;0;2])];
    SetIm [2;0;2;1] [((-1#1),[0;2;1;2])];
    SetIm [2;0;2;2] [((-1#1),[0;2;2;2])];
    SetIm [2;1;0;0] [((-1#1),[0;0;1;2])];
    SetIm [2;1;0;1] [((1#1),[0;1;2;1])];
    SetIm [2;1;0;2] [((1#1),[0;2;2;1])];
    SetIm [2;1;1;0] [((-1#1),[0;1;1;2])];
    SetIm [2;1;1;1] [((-1#1),[1;1;1;2])];
    SetIm [2;1;1;2] [];
    SetIm [2;1;2;0] [((-1#1),[0;2;1;2])];
    SetIm [2;1;2;1] [((-1#1),[1;2;1;2])];
    SetIm [2;1;2;2] [((-1#1),[1;2;2;2])];
    SetIm [2;2;0;0] [];
    SetIm [2;2;0;1] [((1#1),[0;1;2;2])];
    SetIm [2;2;0;2] [((1#1),[0;2;2;2])];
    SetIm [2;2;1;0] [((-1#1),[0;1;2;2])];
    SetIm [2;2;1;1] [];
    SetIm [2;2;1;2] [((1#1),[1;2;2;2])];
    SetIm [2;2;2;0] [((-1#1),[0;2;2;2])];
    SetIm [2;2;2;1] [((-1#1),[1;2;2;2])];
    SetIm [2;2;2;2] [] ].

(* EFTutil.symmetrize_41, wilson/util/common.py:457-495 *)
Definition symmetrize_41 : list asgn :=
  [ SetLin [0;1;0;0] [((1#1),[0;0;0;1])];
    SetLin [0;2;0;0] [((1#1),[0;0;0;2])];
    SetLin [0;2;0;1] [((1#1),[0;1;0;2])];
    SetLin [1;0;0;0] [((1#1),[0;0;1;0])];
    SetLin [1;0;0;1] [((1#1),[0;1;1;0])];
    SetLin [1;0;0;2] [((1#1),[0;2;1;0])];
    SetLin [1;1;0;0] [((1#1),[0;0;1;1])];
    SetLin [1;1;0;1] [((1#1),[0;1;1;1])];
    SetLin [1;1;0;2] [((1#1),[0;2;1;1])];
    SetLin [1;1;1;0] [((1#1),[1;0;1;1])];
    SetLin [1;2;0;0] [((1#1),[0;0;1;2])];
    SetLin [1;2;0;1] [((1#1),[0;1;1;2])];
    SetLin [1;2;0;2] [((1#1),[0;2;1;2])];
    SetLin [1;2;1;0] [((1#1),[1;0;1;2])];
    SetLin [1;2;1;1] [((1#1),[1;1;1;2])];
    SetLin [2;0;0;0] [((1#1),[0;0;2;0])];
    SetLin [2;0;0;1] [((1#1),[0;1;2;0])];
    SetLin [2;0;0;2] [((1#1),[0;2;2;0])];
    SetLin [2;0;1;0] [((1#1),[1;0;2;0])];
    SetLin [2;0;1;1] [((1#1),[1;1;2;0])];
    SetLin [2;0;1;2] [((1#1),[1;2;2;0])];
    SetLin [2;1;0;0] [((1#1),[0;0;2;1])];
    SetLin [2;1;0;1] [((1#1),[0;1;2;1])];
    SetLin [2;1;0;2] [((1#1),[0;2;2;1])];
    SetLin [2;1;1;0] [((1#1),[1;0;2;1])];
    SetLin [2;1;1;1] [((1#1),[1;1;2;1])];
    SetLin [2;1;1;2] [((1#1),[1;2;2;1])];
    SetLin [2;1;2;0] [((1#1),[2;0;2;1])];
    SetLin [2;2;0;0] [((1#1),[0;0;2;2])];
    SetLin [2;2;0;1] [((1#1),[0;1;2;2])];
    SetLin [2;2;0;2] [((1#1),[0;2;2;2])];
    SetLin [2;2;1;0] [((1#1),[1;0;2;2])];
    SetLin [2;2;1;1] [((1#1),[1;1;2;2])];
    SetLin [2;2;1;2] [((1#1),[1;2;2;2])];
    SetLin [2;2;2;0] [((1#1),[2;0;2;2])];
    SetLin [2;2;2;1] [((1#1),[2;1;2;2])] ].

(* EFTutil.symmetrize_5, wilson/util/common.py:498-581 *)
Definition symmetrize_5 : list asgn :=
  [ SetRe [0;0;1;0] [((1#1),[0;0;0;1])];
    SetRe [0;0;2;0] [((1#1),[0;0;0;2])];
    SetRe [0;0;2;1] [((1#1),[0;0;1;2])];
    SetRe [1;0;0;0] [((1#1),[0;1;0;0])];
    SetRe [1;0;0;1] [((1#1),[0;1;1;0])];
    SetRe [1;0;0;2] [((1#1),[0;1;2;0])];
    SetRe [1;0;1;0] [((1#1),[0;1;0;1])];
    SetRe [1;0;1;1] [((1#1),[0;1;1;1])];
    SetRe [1;0;1;2] [((1#1),[0;1;2;1])];
    SetRe [1;0;2;0] [((1#1),[0;1;0;2])];
    SetRe [1;0;2;1] [((1#1),[0;1;1;2])];
    SetRe [1;0;2;2] [((1#1),[0;1;2;2])];
    SetRe [1;1;1;0] [((1#1),[1;1;0;1])];
    SetRe [1;1;2;0] [((1#1),[1;1;0;2])];
    SetRe [1;1;2;1] [((1#1),[1;1;1;2])];
    SetRe [2;0;0;0] [((1#1),[0;2;0;0])];
    SetRe [2;0;0;1] [((1#1),[0;2;1;0])];
    SetRe [2;0;0;2] [((1#1),[0;2;2;0])];
    SetRe [2;0;1;0] [((1#1),[0;2;0;1])];
    SetRe [2;0;1;1] [((1#1),[0;2;1;1])];
    SetRe [2;0;1;2] [((1#1),[0;2;2;1])];
    SetRe [2;0;2;0] [((1#1),[0;2;0;2])];
    SetRe [2;0;2;1] [((1#1),[0;2;1;2])];
    SetRe [2;0;2;2] [((1#1),[0;2;2;2])];
    SetRe [2;1;0;0] [((1#1),[1;2;0;0])];
    SetRe [2;1;0;1] [((1#1),[1;2;1;0])];
    SetRe [2;1;0;2] [((1#1),[1;2;2;0])];
    SetRe [2;1;1;0] [((1#1),[1;2;0;1])];
    SetRe [2;1;1;1] [((1#1),[1;2;1;1])];
    SetRe [2;1;1;2] [((1#1),[1;2;2;1])];
    SetRe [2;1;2;0] [((1#1),[1;2;0;2])];
    SetRe [2;1;2;1] [((1#1),[1;2;1;2])];
    SetRe [2;1;2;2] [((1#1),[1;2;2;2])];
    SetRe [2;2;1;0] [((1#1),[2;2;0;1])];
    SetRe [2;2;2;0] [((1#1),[2;2;0;2])];
    SetRe [2;2;2;1] [((1#1),[2;2;1;2])];
    SetIm [0;0;0;0] [];
    SetIm [0;0;1;0] [((-1#1),[0;0;0;1])];
    SetIm [0;0;1;1] [];
    SetIm [0;0;2;0] [((-1#1),[0;0;0;2])];
    SetIm [0;0;2;1] [((-1#1),[0;0;1;2])];
    SetIm [0;0;2;2] [];
    SetIm [1;0;0;0] [((-1#1),[0;1;0;0])];
    SetIm [1;0;0;1] [((-1#1),[0;1;1;0])];
    SetIm [1;0;0;2] [((-1#1),[0;1;2;0])];
    SetIm [1;0;1;0] [((-1#1),[0;1;0;1])];
    SetIm [1;0;1;1] [((-1#1),[0;1;1;1])];
    SetIm [1;0;1;2] [((-1#1),[0;1;2;1])];
    SetIm [1;0;2;0] [((-1#1),[0;1;0;2])];
    SetIm [1;0;2;1] [((-1#1),[0;1;1;2])];
    SetIm [1;0;2;2] [((-1#1),[0;1;2;2])];
    SetIm [1;1;0;0] [];
    SetIm [1;1;1;0] [((-1#1),[1;1;0;1])];
    SetIm [1;1;1;1] [];
    SetIm [1;1;2;0] [((-1#1),[1;1;0;2])];
    SetIm [1;1;2;1] [((-1#1),[1;1;1;2])];
    SetIm [1;1;2;2] [];
    SetIm [2;0;0;0] [((-1#1),[0;2;0;0])];
    SetIm [2;0;0;1] [((-1#1),[0;2;1;0])];
    SetIm [2;0;0;2] [((-1#1),[0;2;2;0])];
    SetIm [2;0;1;0] [((-1#1),[0;2;0;1])];
    SetIm [2;0;1;1] [((-1#1),[0;2;1;1])];
    SetIm [2;0;1;2] [((-1#1),[0;2;2;1])];
    SetIm [2;0;2;0] [((-1#1),[0;2;0;2])];
    SetIm [2;0;2;1] [((-1#1),[0;2;1;2])];
    SetIm [2;0;2;2] [((-1#1),[0;2;2;2])];
    SetIm [2;1;0;0] [((-1#1),[1;2;0;0])];
    SetIm [2;1;0;1] [((-1#1),[1;2;1;0])];
    SetIm [2;1;0;2] [((-1#1),[1;2;2;0])];
    SetIm [2;1;1;0] [((-1#1),[1;2;0;1])];
    SetIm [2;1;1;1] [((-1#1),[1;2;1;1])];
    SetIm [2;1;1;2] [((-1#1),[1;2;2;1])];
    SetIm [2;1;2;0] [((-1#1),[1;2;0;2])];
    SetIm [2;1;2;1] [((-1#1),[1;2;1;2])];
    SetIm [2;1;2;2] [((-1#1),[1;2;2;2])];
    SetIm [2;2;0;0] [];
    SetIm [2;2;1;0] [((-1#1),[2;2;0;1])];
    SetIm [2;2;1;1] [];
    SetIm [2;2;2;0] [((-1#1),[2;2;0;2])];
    SetIm [2;2;2;1] [((-1#1),[2;2;1;2])];
    SetIm [2;2;2;2] [] ].

(* EFTutil.symmetrize_6, wilson/util/common.py:584-712 *)
Definition symmetrize_6 : list asgn :=
  [ SetRe [0;0;1;0] [((1#1),[0;0;0;1])];
    SetRe [0;0;2;0] [((1#1),[0;0;0;2])];
    SetRe [0;0;2;1] [((1#1),[0;0;1;2])];
    SetRe [0;1;0;0] [((1#1),[0;0;0;1])];
    SetRe [0;1;1;0] [((1#1),[0;0;1;1])];
    SetRe [0;1;2;0] [((1#1),[0;0;1;2])];
    SetRe [0;2;0;0] [((1#1),[0;0;0;2])];
    SetRe [0;2;0;1] [((1#1),[0;1;0;2])];
    SetRe [0;2;1;0] [((1#1),[0;0;1;2])];
    SetRe [0;2;1;1] [((1#1),[0;1;1;2])];
    SetRe [0;2;2;0] [((1#1),[0;0;2;2])];
    SetRe [0;2;2;1] [((1#1),[0;1;2;2])];
    SetRe [1;0;0;0] [((1#1),[0;0;0;1])];
    SetRe [1;0;0;1] [((1#1),[0;0;1;1])];
    SetRe [1;0;0;2] [((1#1),[0;0;1;2])];
    SetRe [1;0;1;0] [((1#1),[0;1;0;1])];
    SetRe [1;0;1;1] [((1#1),[0;1;1;1])];
    SetRe [1;0;1;2] [((1#1),[0;1;2;1])];
    SetRe [1;0;2;0] [((1#1),[0;1;0;2])];
    SetRe [1;0;2;1] [((1#1),[0;1;1;2])];
    SetRe [1;0;2;2] [((1#1),[0;1;2;2])];
    SetRe [1;1;0;0] [((1#1),[0;0;1;1])];
    SetRe [1;1;0;1] [((1#1),[0;1;1;1])];
    SetRe [1;1;0;2] [((1#1),[0;1;1;2])];
    SetRe [1;1;1;0] [((1#1),[0;1;1;1])];
    SetRe [1;1;2;0] [((1#1),[0;1;1;2])];
    SetRe [1;1;2;1] [((1#1),[1;1;1;2])];
    SetRe [1;2;0;0] [((1#1),[0;0;1;2])];
    SetRe [1;2;0;1] [((1#1),[0;1;1;2])];
    SetRe [1;2;0;2] [((1#1),[0;2;1;2])];
    SetRe [1;2;1;0] [((1#1),[0;1;2;1])];
    SetRe [1;2;1;1] [((1#1),[1;1;1;2])];
    SetRe [1;2;2;0] [((1#1),[0;1;2;2])];
    SetRe [1;2;2;1] [((1#1),[1;1;2;2])];
    SetRe [2;0;0;0] [((1#1),[0;0;0;2])];
    SetRe [2;0;0;1] [((1#1),[0;0;1;2])];
    SetRe [2;0;0;2] [((1#1),[0;0;2;2])];
    SetRe [2;0;1;0] [((1#1),[0;1;0;2])];
    SetRe [2;0;1;1] [((1#1),[0;1;1;2])];
    SetRe [2;0;1;2] [((1#1),[0;1;2;2])];
    SetRe [2;0;2;0] [((1#1),[0;2;0;2])];
    SetRe [2;0;2;1] [((1#1),[0;2;1;2])];
    SetRe [2;0;2;2] [((1#1),[0;2;2;2])];
    SetRe [2;1;0;0] [((1#1),[0;0;1;2])];
    SetRe [2;1;0;1] [((1#1),[0;1;2;1])];
    SetRe [2;1;0;2] [((1#1),[0;1;2;2])];
    SetRe [2;1;1;0] [((1#1),[0;1;1;2])];
    SetRe [2;1;1;1] [((1#1),[1;1;1;2])];
    SetRe [2;1;1;2] [((1#1),[1;1;2;2])];
    SetRe [2;1;2;0] [((1#1),[0;2;1;2])];
    SetRe [2;1;2;1] [((1#1),[1;2;1;2])];
    SetRe [2;1;2;2] [((1#1),[1;2;2;2])];
    SetRe [2;2;0;0] [((1#1),[0;0;2;2])];
    SetRe [2;2;0;1] [((1#1),[0;1;2;2])];
    SetRe [2;2;0;2] [((1#1),[0;2;2;2])];
    SetRe [2;2;1;0] [((1#1),[0;1;2;2])];
    SetRe [2;2;1;1] [((1#1),[1;1;2;2])];
    SetRe [2;2;1;2] [((1#1),[1;2;2;2])];
    SetRe [2;2;2;0] [((1#1),[0;2;2;2])];
    SetRe [2;2;2;1] [((1#1),[1;2;2;2])];
    SetIm [0;0;0;0] [];
    SetIm [0;0;1;0] [((-1#1),[0;0;0;1])];
    SetIm [0;0;1;1] [];
    SetIm [0;0;2;0] [((-1#1),[0;0;0;2])];
    SetIm [0;0;2;1] [((-1#1),[0;0;1;2])];
    SetIm [0;0;2;2] [];
    SetIm [0;1;0;0] [((1#1),[0;0;0;1])];
    SetIm [0;1;1;0] [];
    SetIm [0;1;2;0] [((-1#1),[0;0;1;2])];
    SetIm [0;2;0;0] [((1#1),[0;0;0;2])];
    SetIm [0;2;0;1] [((1#1),[0;1;0;2])];
    SetIm [0;2;1;0] [((1#1),[0;0;1;2])];
    SetIm [0;2;1;1] [((1#1),[0;1;1;2])];
    SetIm [0;2;2;0] [];
    SetIm [0;2;2;1] [((1#1),[0;1;2;2])];
    SetIm [1;0;0;0] [((-1#1),[0;0;0;1])];
    SetIm [1;0;0;1] [];
    SetIm [1;0;0;2] [((1#1),[0;0;1;2])];
    SetIm [1;0;1;0] [((-1#1),[0;1;0;1])];
    SetIm [1;0;1;1] [((-1#1),[0;1;1;1])];
    SetIm [1;0;1;2] [((-1#1),[0;1;2;1])];
    SetIm [1;0;2;0] [((-1#1),[0;1;0;2])];
    SetIm [1;0;2;1] [((-1#1),[0;1;1;2])];
    SetIm [1;0;2;2] [((-1#1),[0;1;2;2])];
    SetIm [1;1;0;0] [];
    SetIm [1;1;0;1] [((1#1),[0;1;1;1])];
    SetIm [1;1;0;2] [((1#1),[0;1;1;2])];
    SetIm [1;1;1;0] [((-1#1),[0;1;1;1])];
    SetIm [1;1;1;1] [];
    SetIm [1;1;2;0] [((-1#1),[0;1;1;2])];
    SetIm [1;1;2;1] [((-1#1),[1;1;1;2])];
    SetIm [1;1;2;2] [];
    SetIm [1;2;0;0] [((1#1),[0;0;1;2])];
    SetIm [1;2;0;1] [((1#1),[0;1;1;2])];
    SetIm [1;2;0;2] [((1#1),[0;2;1;2])];
    SetIm [1;2;1;0] [((-1#1),[0;1;2;1])];
    SetIm [1;2;1;1] [((1#1),[1;1;1;2])];
    SetIm [1;2;2;0] [((-1#1),[0;1;2;2])];
    SetIm [1;2;2;1] [];
    SetIm [2;0;0;0] [((-1#1),[0;0;0;2])];
    SetIm [2;0;0;1] [((-1#1),[0;0;1;2])];
    SetIm [2;0;0;2] [];
    SetIm [2;0;1;0] [((-1#1),[0;1;0;2])];
    SetIm [2;0;1;1] [((-1#1),[0;1;1;2])];
    SetIm [2;0;1;2] [((-1#1),[0;1;2;2])];
    SetIm [2;0;2;0] [((-1#1),[0;2;0;2])];
    SetIm [2;0;2;1] [((-1#1),[0;2;1;2])];
    SetIm [2;0;2;2] [((-1#1),[0;2;2;2])];
    SetIm [2;1;0;0] [((-1#1),[0;0;1;2])];
    SetIm [2;1;0;1] [((1#1),[0;1;2;1])];
    SetIm [2;1;0;2] [((1#1),[0;1;2;2])];
    SetIm [2;1;1;0] [((-1#1),[0;1;1;2])];
    SetIm [2;1;1;1] [((-1#1),[1;1;1;2])];
    SetIm [2;1;1;2] [];
    SetIm [2;1;2;0] [((-1#1),[0;2;1;2])];
    SetIm [2;1;2;1] [((-1#1),[1;2;1;2])];
    SetIm [2;1;2;2] [((-1#1),[1;2;2;2])];
    SetIm [2;2;0;0] [];
    SetIm [2;2;0;1] [((1#1),[0;1;2;2])];
    SetIm [2;2;0;2] [((1#1),[0;2;2;2])];
    SetIm [2;2;1;0] [((-1#1),[0;1;2;2])];
    SetIm [2;2;1;1] [];
    SetIm [2;2;1;2] [((1#1),[1;2;2;2])];
    SetIm [2;2;2;0] [((-1#1),[0;2;2;2])];
    SetIm [2;2;2;1] [((-1#1),[1;2;2;2])];
    SetIm [2;2;2;2] [] ].

(* EFTutil.symmetrize_7, wilson/util/common.py:715-744 *)
Definition symmetrize_7 : list asgn :=
  [ SetLin [1;0;0;0] [((1#1),[0;1;0;0])];
    SetLin [1;0;0;1] [((1#1),[0;1;0;1])];
    SetLin [1;0;0;2] [((1#1),[0;1;0;2])];
    SetLin [1;0;1;0] [((1#1),[0;1;1;0])];
    SetLin [1;0;1;1] [((1#1),[0;1;1;1])];
    SetLin [1;0;1;2] [((1#1),[0;1;1;2])];
    SetLin [1;0;2;0] [((1#1),[0;1;2;0])];
    SetLin [1;0;2;1] [((1#1),[0;1;2;1])];
    SetLin [1;0;2;2] [((1#1),[0;1;2;2])];
    SetLin [2;0;0;0] [((1#1),[0;2;0;0])];
    SetLin [2;0;0;1] [((1#1),[0;2;0;1])];
    SetLin [2;0;0;2] [((1#1),[0;2;0;2])];
    SetLin [2;0;1;0] [((1#1),[0;2;1;0])];
    SetLin [2;0;1;1] [((1#1),[0;2;1;1])];
    SetLin [2;0;1;2] [((1#1),[0;2;1;2])];
    SetLin [2;0;2;0] [((1#1),[0;2;2;0])];
    SetLin [2;0;2;1] [((1#1),[0;2;2;1])];
    SetLin [2;0;2;2] [((1#1),[0;2;2;2])];
    SetLin [2;1;0;0] [((1#1),[1;2;0;0])];
    SetLin [2;1;0;1] [((1#1),[1;2;0;1])];
    SetLin [2;1;0;2] [((1#1),[1;2;0;2])];
    SetLin [2;1;1;0] [((1#1),[1;2;1;0])];
    SetLin [2;1;1;1] [((1#1),[1;2;1;1])];
    SetLin [2;1;1;2] [((1#1),[1;2;1;2])];
    SetLin [2;1;2;0] [((1#1),[1;2;2;0])];
    SetLin [2;1;2;1] [((1#1),[1;2;2;1])];
    SetLin [2;1;2;2] [((1#1),[1;2;2;2])] ].

(* EFTutil.symmetrize_71, wilson/util/common.py:747-776 *)
Definition symmetrize_71 : list asgn :=
  [ SetLin [1;0;0;0] [((-1#1),[0;1;0;0])];
    SetLin [1;0;0;1] [((-1#1),[0;1;0;1])];
    SetLin [1;0;0;2] [((-1#1),[0;1;0;2])];
    SetLin [1;0;1;0] [((-1#1),[0;1;1;0])];
    SetLin [1;0;1;1] [((-1#1),[0;1;1;1])];
    SetLin [1;0;1;2] [((-1#1),[0;1;1;2])];
    SetLin [1;0;2;0] [((-1#1),[0;1;2;0])];
    SetLin [1;0;2;1] [((-1#1),[0;1;2;1])];
    SetLin [1;0;2;2] [((-1#1),[0;1;2;2])];
    SetLin [2;0;0;0] [((-1#1),[0;2;0;0])];
    SetLin [2;0;0;1] [((-1#1),[0;2;0;1])];
    SetLin [2;0;0;2] [((-1#1),[0;2;0;2])];
    SetLin [2;0;1;0] [((-1#1),[0;2;1;0])];
    SetLin [2;0;1;1] [((-1#1),[0;2;1;1])];
    SetLin [2;0;1;2] [((-1#1),[0;2;1;2])];
    SetLin [2;0;2;0] [((-1#1),[0;2;2;0])];
    SetLin [2;0;2;1] [((-1#1),[0;2;2;1])];
    SetLin [2;0;2;2] [((-1#1),[0;2;2;2])];
    SetLin [2;1;0;0] [((-1#1),[1;2;0;0])];
    SetLin [2;1;0;1] [((-1#1),[1;2;0;1])];
    SetLin [2;1;0;2] [((-1#1),[1;2;0;2])];
    SetLin [2;1;1;0] [((-1#1),[1;2;1;0])];
    SetLin [2;1;1;1] [((-1#1),[1;2;1;1])];
    SetLin [2;1;1;2] [((-1#1),[1;2;1;2])];
    SetLin [2;1;2;0] [((-1#1),[1;2;2;0])];
    SetLin [2;1;2;1] [((-1#1),[1;2;2;1])];
    SetLin [2;1;2;2] [((-1#1),[1;2;2;2])] ].

(* EFTutil.symmetrize_8, wilson/util/common.py:779-811 *)
Definition symmetrize_8 : list asgn :=
  [ SetLin [1;0;0;0] [((1#1),[0;0;1;0])];
    SetLin [1;0;0;1] [((1#1),[0;0;1;1])];
    SetLin [1;0;0;2] [((1#1),[0;0;1;2])];
    SetLin [1;1;0;0] [((1#1),[0;1;1;0])];
    SetLin [1;1;0;1] [((1#1),[0;1;1;1])];
    SetLin [1;1;0;2] [((1#1),[0;1;1;2])];
    SetLin [2;0;0;0] [((1#1),[0;0;2;0])];
    SetLin [2;0;0;1] [((1#1),[0;0;2;1])];
    SetLin [2;0;0;2] [((1#1),[0;0;2;2])];
    SetLin [2;0;1;0] [((1#1),[1;2;0;0]); ((1#1),[1;0;2;0]); ((-1#1),[0;2;1;0])];
    SetLin [2;0;1;1] [((1#1),[1;2;0;1]); ((1#1),[1;0;2;1]); ((-1#1),[0;2;1;1])];
    SetLin [2;0;1;2] [((1#1),[1;2;0;2]); ((1#1),[1;0;2;2]); ((-1#1),[0;2;1;2])];
    SetLin [2;1;0;0] [((1#1),[0;2;1;0]); ((1#1),[0;1;2;0]); ((-1#1),[1;2;0;0])];
    SetLin [2;1;0;1] [((1#1),[0;2;1;1]); ((1#1),[0;1;2;1]); ((-1#1),[1;2;0;1])];
    SetLin [2;1;0;2] [((1#1),[0;2;1;2]); ((1#1),[0;1;2;2]); ((-1#1),[1;2;0;2])];
    SetLin [2;1;1;0] [((1#1),[1;1;2;0])];
    SetLin [2;1;1;1] [((1#1),[1;1;2;1])];
    SetLin [2;1;1;2] [((1#1),[1;1;2;2])];
    SetLin [2;2;0;0] [((1#1),[0;2;2;0])];
    SetLin [2;2;0;1] [((1#1),[0;2;2;1])];
    SetLin [2;2;0;2] [((1#1),[0;2;2;2])];
    SetLin [2;2;1;0] [((1#1),[1;2;2;0])];
    SetLin [2;2;1;1] [((1#1),[1;2;2;1])];
    SetLin [2;2;1;2] [((1#1),[1;2;2;2])] ].

(* EFTutil.symmetrize_9, wilson/util/common.py:883-888 *)
Definition symmetrize_9 : list asgn :=
  [ SetLin [1;0] [((1#1),[0;1])];
    SetLin [2;0] [((1#1),[0;2])];
    SetLin [2;1] [((1#1),[1;2])] ].

(* EFTutil.scale_8, wilson/util/common.py:814-851; all right-hand sides read the
   input b, so the statements commute with the copy *)
Definition scale_8 : list asgn :=
  flat_map (fun i =>
  [ SetLin [0;0;1;i] [((1#2),[0;0;1;i])];
    SetLin [0;0;2;i] [((1#2),[0;0;2;i])];
    SetLin [0;1;1;i] [((1#2),[0;1;1;i])];
    SetLin [0;1;2;i] [((2#3),[0;1;2;i]); ((-1#6),[0;2;1;i]); ((-1#6),[1;0;2;i]); ((1#6),[1;2;0;i])];
    SetLin [0;2;1;i] [((-1#6),[0;1;2;i]); ((2#3),[0;2;1;i]); ((1#6),[1;0;2;i]); ((1#3),[1;2;0;i])];
    SetLin [0;2;2;i] [((1#2),[0;2;2;i])];
    SetLin [1;0;2;i] [((-1#6),[0;1;2;i]); ((1#6),[0;2;1;i]); ((2#3),[1;0;2;i]); ((-1#6),[1;2;0;i])];
    SetLin [1;1;2;i] [((1#2),[1;1;2;i])];
    SetLin [1;2;0;i] [((1#6),[0;1;2;i]); ((1#3),[0;2;1;i]); ((-1#6),[1;0;2;i]); ((2#3),[1;2;0;i])];
    SetLin [1;2;2;i] [((1#2),[1;2;2;i])] ]) [0;1;2].

(* EFTutil.unscale_8, wilson/util/common.py:854-880; all right-hand sides read the
   input b, so the statements commute with the copy *)
Definition unscale_8 : list asgn :=
  flat_map (fun i =>
  [ SetLin [0;0;1;i] [((2#1),[0;0;1;i])];
    SetLin [0;0;2;i] [((2#1),[0;0;2;i])];
    SetLin [0;1;1;i] [((2#1),[0;1;1;i])];
    SetLin [0;1;2;i] [((2#1),[0;1;2;i]); ((1#1),[0;2;1;i]); ((-1#1),[1;2;0;i])];
    SetLin [0;2;1;i] [((1#1),[0;1;2;i]); ((3#1),[0;2;1;i]); ((-1#1),[1;0;2;i]); ((-2#1),[1;2;0;i])];
    SetLin [0;2;2;i] [((2#1),[0;2;2;i])];
    SetLin [1;0;2;i] [((-1#1),[0;2;1;i]); ((2#1),[1;0;2;i]); ((1#1),[1;2;0;i])];
    SetLin [1;1;2;i] [((2#1),[1;1;2;i])];
    SetLin [1;2;0;i] [((-1#1),[0;1;2;i]); ((-2#1),[0;2;1;i]); ((1#1),[1;0;2;i]); ((3#1),[1;2;0;i])];
    SetLin [1;2;2;i] [((2#1),[1;2;2;i])] ]) [0;1;2].
