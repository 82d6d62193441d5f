(** The five shipped curves, and programs that use their points: the vocabulary
    of C38 and C39. *)
From Coq Require Import ZArith List String Bool.
From Verif Require Import Lang Fields EdwardsSpec.
From Verif Require Src_curves.
Import ListNotations.
Local Open Scope string_scope.
Local Open Scope Z_scope.
Local Open Scope list_scope.

Record crv := mkcrv {
  cv_tbl : list (string * func);   (* the translated curve file, its field file and edwards.rs *)
  cv_fld : fld;                    (* the field it is defined over *)
  cv_d : Z }.                      (* d of x^2 + y^2 = 1 + d x^2 y^2 as published for the curve *)

(* src/curve/{e_222,curve1174,e_382,curve41417,e_521}.rs; d from the comments in src/field/mod_*.rs *)
Definition E_222      := mkcrv Src_curves.table_e_222      e222_117 160102.
Definition Curve1174  := mkcrv Src_curves.table_curve1174  e251_9   (-1174).
Definition E_382      := mkcrv Src_curves.table_e_382      e382_105 (-67254).
Definition Curve41417 := mkcrv Src_curves.table_curve41417 e414_17  3617.
Definition E_521      := mkcrv Src_curves.table_e_521      e521_1   (-376014).
Definition all_curves : list crv := [E_222; Curve1174; E_382; Curve41417; E_521].

Definition cv_p (C : crv) : Z := modulus (cv_fld C).
(** the integer a stored coordinate stands for *)
Definition coordinate (C : crv) (v : val) : Z := match v with VArr l => value (cv_fld C) l | VInt _ => 0 end.
(** all four coordinates are values the field operations produce / are reduced *)
Definition each (q : list Z -> Prop) (P : ext) : Prop :=
  exists x y z t, P = Ext (VArr x) (VArr y) (VArr z) (VArr t) /\ q x /\ q y /\ q z /\ q t.
Definition produced_point (C : crv) : ext -> Prop := each (produced (cv_fld C)).
Definition canonical_point (C : crv) : ext -> Prop := each (canonical (cv_fld C)).
(** extended coordinates of A on the curve C *)
Definition represents (C : crv) (P : ext) (A : affine) : Prop := stands_for (cv_p C) (coordinate C) P A.

(** a call of the library, in both builds *)
Definition point_runs (C : crv) (f : string) (args rets outs : list val) : Prop :=
  forall md, rust_call md (cv_tbl C) f args = Ok (rets, outs).
Definition curve_sum (C : crv) (P Q R : ext) : Prop :=
  point_runs C "P::add_assign(&P)" (coords P ++ coords Q) [] (coords R ++ coords Q) /\
  point_runs C "P::add_assign(P)" (coords P ++ coords Q) [] (coords R ++ coords Q) /\
  point_runs C "(&P)::add(&P)" (coords P ++ coords Q) (coords R) (coords P ++ coords Q) /\
  point_runs C "P::add(P)" (coords P ++ coords Q) (coords R) (coords P ++ coords Q).
Definition curve_double (C : crv) (P R : ext) : Prop :=
  point_runs C "P::double" (coords P) [] (coords R) /\ point_runs C "P::doubled" (coords P) (coords R) (coords P).
Definition curve_triple (C : crv) (P R : ext) : Prop :=
  point_runs C "P::triple" (coords P) [] (coords R) /\ point_runs C "P::tripled" (coords P) (coords R) (coords P).

(** ** Programs over points.  The coordinates are private, so points only come
    from zero() and init(). *)
Inductive pinstr :=
| PZero                            (* let p = P::zero(); *)
| PInit (i : nat) (x y : list Z)   (* pi.init(x, y); *)
| PAdd (i j : nat)                 (* let p = &pi + &pj; *)
| PAddAssign (i j : nat)           (* pi += pj; *)
| PDouble (i : nat)                (* pi.double(); *)
| PDoubled (i : nat)               (* let p = pi.doubled(); *)
| PTriple (i : nat)                (* pi.triple(); *)
| PTripled (i : nat)               (* let p = pi.tripled(); *)
| PScalar (i : nat) (n : list Z)   (* pi.scalar_mult(&mut n); *)
| PLadder (i : nat) (n : list Z).  (* pi.scalar_mult_normalized(&n); *)

Definition to_ext (vs : list val) : res ext := match vs with x :: y :: z :: t :: _ => Ok (Ext x y z t) | _ => Stuck end.
Definition pvar (st : list ext) (i : nat) : res ext := match nth_error st i with Some P => Ok P | None => Stuck end.
Fixpoint set_nth (l : list ext) (i : nat) (x : ext) : list ext :=
  match l, i with [], _ => [] | _ :: t, O => x :: t | h :: t, S k => h :: set_nth t k x end.
(* the returned point is a new variable; the final value of the receiver replaces it *)
Definition new_point (st : list ext) (r : res (list val * list val)) : res (list ext) :=
  bind r (fun ro => bind (to_ext (fst ro)) (fun P => Ok (st ++ [P]))).
Definition set_point (st : list ext) (i : nat) (r : res (list val * list val)) : res (list ext) :=
  bind r (fun ro => bind (to_ext (snd ro)) (fun P => Ok (set_nth st i P))).
Definition pstep (md : mode) (C : crv) (c : pinstr) (st : list ext) : res (list ext) :=
  let lib f vs := rust_call md (cv_tbl C) f vs in
  match c with
  | PZero => new_point st (lib "P::zero" [])
  | PInit i x y => bind (pvar st i) (fun P => set_point st i (lib "P::init" (coords P ++ [VArr x; VArr y])))
  | PAdd i j => bind (pvar st i) (fun P => bind (pvar st j) (fun Q => new_point st (lib "(&P)::add(&P)" (coords P ++ coords Q))))
  | PAddAssign i j => bind (pvar st i) (fun P => bind (pvar st j) (fun Q => set_point st i (lib "P::add_assign(P)" (coords P ++ coords Q))))
  | PDouble i => bind (pvar st i) (fun P => set_point st i (lib "P::double" (coords P)))
  | PDoubled i => bind (pvar st i) (fun P => new_point st (lib "P::doubled" (coords P)))
  | PTriple i => bind (pvar st i) (fun P => set_point st i (lib "P::triple" (coords P)))
  | PTripled i => bind (pvar st i) (fun P => new_point st (lib "P::tripled" (coords P)))
  | PScalar i n => bind (pvar st i) (fun P => set_point st i (lib "P::scalar_mult" (coords P ++ [VArr n])))
  | PLadder i n => bind (pvar st i) (fun P => set_point st i (lib "P::scalar_mult_normalized" (coords P ++ [VArr n])))
  end.
Fixpoint prun (md : mode) (C : crv) (cs : list pinstr) (st : list ext) : res (list ext) :=
  match cs with [] => Ok st | c :: t => bind (pstep md C c st) (prun md C t) end.

(** programs that only mention points that exist ([n] so far) and give init and
    scalar_mult field values some field operation can have produced *)
Fixpoint usable (C : crv) (cs : list pinstr) (n : nat) : Prop :=
  match cs with
  | [] => True
  | PZero :: t => usable C t (S n)
  | PInit i x y :: t => (i < n)%nat /\ produced (cv_fld C) x /\ produced (cv_fld C) y /\ usable C t n
  | PAdd i j :: t => (i < n)%nat /\ (j < n)%nat /\ usable C t (S n)
  | PAddAssign i j :: t => (i < n)%nat /\ (j < n)%nat /\ usable C t n
  | (PDouble i | PTriple i) :: t => (i < n)%nat /\ usable C t n
  | (PDoubled i | PTripled i) :: t => (i < n)%nat /\ usable C t (S n)
  | (PScalar i k | PLadder i k) :: t => (i < n)%nat /\ produced (cv_fld C) k /\ usable C t n
  end.

(** ** What a user would expect of the shipped curves (C38): on points of the
    curve given by reduced coordinates, addition and doubling are the group law *)
Definition addition_is_right (C : crv) : Prop := forall P Q A B S,
  canonical_point C P -> canonical_point C Q -> represents C P A -> represents C Q B ->
  on_curve (cv_p C) (cv_d C) A -> on_curve (cv_p C) (cv_d C) B -> edwards_sum (cv_p C) (cv_d C) A B S ->
  exists R, curve_sum C P Q R /\ represents C R S.
Definition doubling_is_right (C : crv) : Prop := forall P A S,
  canonical_point C P -> represents C P A -> on_curve (cv_p C) (cv_d C) A -> edwards_sum (cv_p C) (cv_d C) A A S ->
  exists R, curve_double C P R /\ represents C R S.

(** ** When they are right.  Subtraction is right exactly when the value taken
    away has no pending carry (C04), and the formulas take away three products
    per operation. *)
(** the products x1 x2, y1 y2 and (t1 d) t2, as the library computes them, have
    no pending carry *)
Definition clean_sum (C : crv) (P Q : ext) : Prop :=
  let F := cv_fld C in
  exists x1 y1 z1 t1 x2 y2 z2 t2 dv td a b c,
    P = Ext (VArr x1) (VArr y1) (VArr z1) (VArr t1) /\ Q = Ext (VArr x2) (VArr y2) (VArr z2) (VArr t2) /\
    point_runs C "C::d_val" [] [VArr dv] [] /\
    computes F "mul" x1 x2 a /\ computes F "mul" y1 y2 b /\ computes F "mul" t1 dv td /\ computes F "mul" td t2 c /\
    carry F a = 0 /\ carry F b = 0 /\ carry F c = 0.
(** the squares of x, y and z and the double of the square of z, as the library
    computes them, have no pending carry *)
Definition clean_double (C : crv) (P : ext) : Prop :=
  let F := cv_fld C in
  exists x y z t a b zz c,
    P = Ext (VArr x) (VArr y) (VArr z) (VArr t) /\
    computes_unary F "F::square" "F::squared" x a /\ computes_unary F "F::square" "F::squared" y b /\
    computes_unary F "F::square" "F::squared" z zz /\ computes_small F "mul" zz 2 c /\
    carry F a = 0 /\ carry F b = 0 /\ carry F zz = 0 /\ carry F c = 0.
(** With a = x1 x2, b = y1 y2, c = (t1 d) t2 and zz = z1 z2 as the library
    computes them: the pending carries of a and b cancel, that of c stands to that
    of a as zz - c to b - a, and zz - c with the error that c causes is not 0.
    This holds of products without pending carries unless zz - c is 0. *)
Definition sum_condition (C : crv) (P Q : ext) : Prop :=
  let F := cv_fld C in let v := value F in
  exists x1 y1 z1 t1 x2 y2 z2 t2 dv td a b c zz,
    P = Ext (VArr x1) (VArr y1) (VArr z1) (VArr t1) /\ Q = Ext (VArr x2) (VArr y2) (VArr z2) (VArr t2) /\
    point_runs C "C::d_val" [] [VArr dv] [] /\
    computes F "mul" x1 x2 a /\ computes F "mul" y1 y2 b /\ computes F "mul" t1 dv td /\ computes F "mul" td t2 c /\
    computes F "mul" z1 z2 zz /\
    carry F a + carry F b = 0 /\
    eqmod F (carry F a * (v zz - v c)) (carry F c * (v b - v a)) /\
    ~ eqmod F (v zz - v c + 2 * fl_C F * carry F c) 0.
(** With a, b, zz the squares of x, y, z and c the double of zz as the library
    computes them: the pending carries of a and b cancel, and the errors of a - b
    and a + b - c, the latter from 2 zz too, stand to each other as these do. *)
Definition double_condition (C : crv) (P : ext) : Prop :=
  let F := cv_fld C in let v := value F in
  exists x y z t a b zz c,
    P = Ext (VArr x) (VArr y) (VArr z) (VArr t) /\
    computes_unary F "F::square" "F::squared" x a /\ computes_unary F "F::square" "F::squared" y b /\
    computes_unary F "F::square" "F::squared" z zz /\ computes_small F "mul" zz 2 c /\
    carry F a + carry F b = 0 /\
    eqmod F ((v a - v b + 2 * fl_C F * carry F b) * (v a + v b - 2 * v zz)) ((v a - v b) * (v a + v b - v c + 2 * fl_C F * carry F c)) /\
    ~ eqmod F (v a + v b - v c + 2 * fl_C F * carry F c) 0.
(** in e222_117 and e251_9 a product with a negative factor is wrong as well
    (C02): the four factors (x1 + y1)(x2 + y2) - a - b, zz - c, zz + c and b - a
    must not be negative, where zz = z1 z2 *)
Definition positive_sum (C : crv) (P Q : ext) : Prop :=
  let F := cv_fld C in
  exists x1 y1 z1 t1 x2 y2 z2 t2 dv td a b c zz s1 s2 m u e f g h,
    P = Ext (VArr x1) (VArr y1) (VArr z1) (VArr t1) /\ Q = Ext (VArr x2) (VArr y2) (VArr z2) (VArr t2) /\
    point_runs C "C::d_val" [] [VArr dv] [] /\
    computes F "mul" x1 x2 a /\ computes F "mul" y1 y2 b /\ computes F "mul" t1 dv td /\ computes F "mul" td t2 c /\
    computes F "mul" z1 z2 zz /\ computes F "add" x1 y1 s1 /\ computes F "add" x2 y2 s2 /\ computes F "mul" s1 s2 m /\
    computes F "sub" m a u /\ computes F "sub" u b e /\ computes F "sub" zz c f /\ computes F "add" zz c g /\ computes F "sub" b a h /\
    0 <= top F e /\ 0 <= top F f /\ 0 <= top F g /\ 0 <= top F h.
(** the same for doubling: (x + y)^2 - a - b, a + b - c, a + b and a - b *)
Definition positive_double (C : crv) (P : ext) : Prop :=
  let F := cv_fld C in
  exists x y z t a b zz c s m u e f g h,
    P = Ext (VArr x) (VArr y) (VArr z) (VArr t) /\
    computes_unary F "F::square" "F::squared" x a /\ computes_unary F "F::square" "F::squared" y b /\
    computes_unary F "F::square" "F::squared" z zz /\ computes_small F "mul" zz 2 c /\
    computes F "add" x y s /\ computes_unary F "F::square" "F::squared" s m /\ computes F "sub" m a u /\ computes F "sub" u b e /\
    computes F "add" a b g /\ computes F "sub" g c f /\ computes F "sub" a b h /\
    0 <= top F e /\ 0 <= top F f /\ 0 <= top F g /\ 0 <= top F h.
(** the library's product of x and y is right *)
Definition right_product (F : fld) (x y : list Z) : Prop :=
  exists o, computes F "mul" x y o /\ eqmod F (value F o) (value F x * value F y).
(** all ten products of an addition are *)
Definition sum_products_right (C : crv) (P Q : ext) : Prop :=
  let F := cv_fld C in
  exists x1 y1 z1 t1 x2 y2 z2 t2 dv td a b c zz s1 s2 m u e f g h,
    P = Ext (VArr x1) (VArr y1) (VArr z1) (VArr t1) /\ Q = Ext (VArr x2) (VArr y2) (VArr z2) (VArr t2) /\
    point_runs C "C::d_val" [] [VArr dv] [] /\
    computes F "mul" x1 x2 a /\ computes F "mul" y1 y2 b /\ computes F "mul" t1 dv td /\ computes F "mul" td t2 c /\
    computes F "mul" z1 z2 zz /\ computes F "add" x1 y1 s1 /\ computes F "add" x2 y2 s2 /\ computes F "mul" s1 s2 m /\
    computes F "sub" m a u /\ computes F "sub" u b e /\ computes F "sub" zz c f /\ computes F "add" zz c g /\ computes F "sub" b a h /\
    right_product F x1 x2 /\ right_product F y1 y2 /\ right_product F t1 dv /\ right_product F td t2 /\ right_product F z1 z2 /\
    right_product F s1 s2 /\ right_product F e f /\ right_product F g h /\ right_product F f g /\ right_product F e h.
(** all four products of a doubling are *)
Definition double_products_right (C : crv) (P : ext) : Prop :=
  let F := cv_fld C in
  exists x y z t a b zz c s m u e f g h,
    P = Ext (VArr x) (VArr y) (VArr z) (VArr t) /\
    computes_unary F "F::square" "F::squared" x a /\ computes_unary F "F::square" "F::squared" y b /\
    computes_unary F "F::square" "F::squared" z zz /\ computes_small F "mul" zz 2 c /\
    computes F "add" x y s /\ computes_unary F "F::square" "F::squared" s m /\ computes F "sub" m a u /\ computes F "sub" u b e /\
    computes F "add" a b g /\ computes F "sub" g c f /\ computes F "sub" a b h /\
    right_product F e f /\ right_product F g h /\ right_product F f g /\ right_product F e h.
