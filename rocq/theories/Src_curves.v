(* Generated by tools/rust2coq.py from src/curve/{e_222,curve1174,e_382,curve41417,e_521}.rs -- do not edit.
   One definition per item; each statement is preceded by its source line. *)
From Coq Require Import ZArith List String.
From Verif Require Import Lang.
From Verif Require Src_e221_3 Src_e222_117 Src_e251_9 Src_e255_19 Src_e382_105 Src_e383_187 Src_e414_17 Src_e511_187 Src_e521_1 Src_edwards.
Import ListNotations LangNotations.
Local Open Scope Z_scope.
Local Open Scope string_scope.

(* src/curve/e_222.rs:10-10  EdwardsCurve  C::d_val *)
Definition f_e_222_d_val : func := mkfunc [] [] [ELit Src_e222_117.E222_D].

(* the functions visible to a user of src/curve/e_222.rs: EdwardsCurve::Scalar = Mod_e222_117 *)
Definition table_e_222 : list (string * func) :=
  ("C::d_val", f_e_222_d_val) :: Src_e222_117.table ++ Src_edwards.table.

(* src/curve/curve1174.rs:10-10  EdwardsCurve  C::d_val *)
Definition f_curve1174_d_val : func := mkfunc [] [] [ELit Src_e251_9.CURVE1174_D].

(* the functions visible to a user of src/curve/curve1174.rs: EdwardsCurve::Scalar = Mod_e251_9 *)
Definition table_curve1174 : list (string * func) :=
  ("C::d_val", f_curve1174_d_val) :: Src_e251_9.table ++ Src_edwards.table.

(* src/curve/e_382.rs:10-10  EdwardsCurve  C::d_val *)
Definition f_e_382_d_val : func := mkfunc [] [] [ELit Src_e382_105.E382_D].

(* the functions visible to a user of src/curve/e_382.rs: EdwardsCurve::Scalar = Mod_e382_105 *)
Definition table_e_382 : list (string * func) :=
  ("C::d_val", f_e_382_d_val) :: Src_e382_105.table ++ Src_edwards.table.

(* src/curve/curve41417.rs:10-10  EdwardsCurve  C::d_val *)
Definition f_curve41417_d_val : func := mkfunc [] [] [ELit Src_e414_17.CURVE41417_D].

(* the functions visible to a user of src/curve/curve41417.rs: EdwardsCurve::Scalar = Mod_e414_17 *)
Definition table_curve41417 : list (string * func) :=
  ("C::d_val", f_curve41417_d_val) :: Src_e414_17.table ++ Src_edwards.table.

(* src/curve/e_521.rs:10-10  EdwardsCurve  C::d_val *)
Definition f_e_521_d_val : func := mkfunc [] [] [ELit Src_e521_1.E521_D].

(* the functions visible to a user of src/curve/e_521.rs: EdwardsCurve::Scalar = Mod_e521_1 *)
Definition table_e_521 : list (string * func) :=
  ("C::d_val", f_e_521_d_val) :: Src_e521_1.table ++ Src_edwards.table.

