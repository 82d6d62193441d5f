(* Generated by tools/rust2coq.py from src/curve/edwards.rs -- do not edit.
   One definition per item; each statement is preceded by its source line. *)
From Coq Require Import ZArith List String.
From Verif Require Import Lang.
Import ListNotations LangNotations.
Local Open Scope Z_scope.
Local Open Scope string_scope.

(* src/curve/edwards.rs:24-42  AddAssign<&P>  P::add_assign(&P) *)
Definition f_P_add_assign_ref : func := mkfunc ["self.x"; "self.y"; "self.z"; "self.t"; "rhs.x"; "rhs.y"; "rhs.z"; "rhs.t"] [
    (*25*) SCall ["a"] "F::mul(F)" [AVal "self.x"; AVal "rhs.x"];
    (*26*) SCall ["b"] "F::mul(F)" [AVal "self.y"; AVal "rhs.y"];
    (*27*) SCall ["%3"] "C::d_val" [];
    (*27*) SCall ["%4"] "F::mul(F)" [AVal "self.t"; AVal "%3"];
    (*27*) SCall ["c"] "F::mul(F)" [AVal "%4"; AVal "rhs.t"];
    (*28*) SCall ["d"] "F::mul(F)" [AVal "self.z"; AVal "rhs.z"];
    (*29*) SCall ["%7"] "F::add(F)" [AVal "self.x"; AVal "self.y"];
    (*29*) SCall ["%8"] "F::add(F)" [AVal "rhs.x"; AVal "rhs.y"];
    (*29*) SCall ["%9"] "F::mul(F)" [AVal "%7"; AVal "%8"];
    (*29*) SCall ["%10"] "F::sub(F)" [AVal "%9"; AVal "a"];
    (*29*) SCall ["e"] "F::sub(F)" [AVal "%10"; AVal "b"];
    (*30*) SCall ["f"] "F::sub(F)" [AVal "d"; AVal "c"];
    (*31*) SCall ["g"] "F::add(F)" [AVal "d"; AVal "c"];
    (*32*) SCall ["h"] "F::sub(F)" [AVal "b"; AVal "a"];
    (*33*) SCall ["x3"] "F::mul(F)" [AVal "e"; AVal "f"];
    (*34*) SCall ["y3"] "F::mul(F)" [AVal "g"; AVal "h"];
    (*35*) SCall ["z3"] "F::mul(F)" [AVal "f"; AVal "g"];
    (*36*) SCall ["t3"] "F::mul(F)" [AVal "e"; AVal "h"];
    (*38*) "self.x" <- "x3";
    (*39*) "self.y" <- "y3";
    (*40*) "self.z" <- "z3";
    (*41*) "self.t" <- "t3" ]
    [].

(* src/curve/edwards.rs:47-49  AddAssign<P>  P::add_assign(P) *)
Definition f_P_add_assign_val : func := mkfunc ["self.x"; "self.y"; "self.z"; "self.t"; "rhs.x"; "rhs.y"; "rhs.z"; "rhs.t"] [
    (*48*) SCall [] "P::add_assign(&P)" [AMut "self.x"; AMut "self.y"; AMut "self.z"; AMut "self.t"; AVal "rhs.x"; AVal "rhs.y"; AVal "rhs.z"; AVal "rhs.t"] ]
    [].

(* src/curve/edwards.rs:56-60  Add<&P>  (&P)::add(&P) *)
Definition f_Pref_add_ref : func := mkfunc ["self.x"; "self.y"; "self.z"; "self.t"; "rhs.x"; "rhs.y"; "rhs.z"; "rhs.t"] [
    (*57*) "out.x" <- "self.x";
    (*57*) "out.y" <- "self.y";
    (*57*) "out.z" <- "self.z";
    (*57*) "out.t" <- "self.t";
    (*58*) SCall [] "P::add_assign(&P)" [AMut "out.x"; AMut "out.y"; AMut "out.z"; AMut "out.t"; AVal "rhs.x"; AVal "rhs.y"; AVal "rhs.z"; AVal "rhs.t"] ]
    [EVar "out.x"; EVar "out.y"; EVar "out.z"; EVar "out.t"].

(* src/curve/edwards.rs:66-68  Add<P>  P::add(P) *)
Definition f_P_add_val : func := mkfunc ["self.x"; "self.y"; "self.z"; "self.t"; "rhs.x"; "rhs.y"; "rhs.z"; "rhs.t"] [
    (*67*) SCall ["%1.x"; "%1.y"; "%1.z"; "%1.t"] "(&P)::add(&P)" [AVal "self.x"; AVal "self.y"; AVal "self.z"; AVal "self.t"; AVal "rhs.x"; AVal "rhs.y"; AVal "rhs.z"; AVal "rhs.t"] ]
    [EVar "%1.x"; EVar "%1.y"; EVar "%1.z"; EVar "%1.t"].

(* src/curve/edwards.rs:72-77  inherent  P::normalized_bitand *)
Definition f_P_normalized_bitand : func := mkfunc ["self.x"; "self.y"; "self.z"; "self.t"; "mask"] [
    (*73*) SCall [] "F::normalized_bitand" [AMut "self.x"; AVal "mask"];
    (*74*) SCall [] "F::normalized_bitand" [AMut "self.y"; AVal "mask"];
    (*75*) SCall [] "F::normalized_bitand" [AMut "self.z"; AVal "mask"];
    (*76*) SCall [] "F::normalized_bitand" [AMut "self.t"; AVal "mask"] ]
    [].

(* src/curve/edwards.rs:79-84  inherent  P::normalized_bitor *)
Definition f_P_normalized_bitor : func := mkfunc ["self.x"; "self.y"; "self.z"; "self.t"; "rhs.x"; "rhs.y"; "rhs.z"; "rhs.t"] [
    (*80*) SCall [] "F::normalized_bitor" [AMut "self.x"; AVal "rhs.x"];
    (*81*) SCall [] "F::normalized_bitor" [AMut "self.y"; AVal "rhs.y"];
    (*82*) SCall [] "F::normalized_bitor" [AMut "self.z"; AVal "rhs.z"];
    (*83*) SCall [] "F::normalized_bitor" [AMut "self.t"; AVal "rhs.t"] ]
    [].

(* src/curve/edwards.rs:90-97  Point  P::zero *)
Definition f_P_zero : func := mkfunc [] [
    (*91*) SCall ["%1.x"] "F::zero" [];
    (*91*) SCall ["%1.y"] "F::one" [];
    (*91*) SCall ["%1.z"] "F::one" [];
    (*91*) SCall ["%1.t"] "F::one" [] ]
    [EVar "%1.x"; EVar "%1.y"; EVar "%1.z"; EVar "%1.t"].

(* src/curve/edwards.rs:99-104  Point  P::init *)
Definition f_P_init : func := mkfunc ["self.x"; "self.y"; "self.z"; "self.t"; "x"; "y"] [
    (*100*) "self.x" <- "x";
    (*101*) "self.y" <- "y";
    (*102*) SCall ["self.z"] "F::one" [];
    (*103*) SCall ["self.t"] "F::one" [] ]
    [].

(* src/curve/edwards.rs:106-109  Point  P::scalar_mult *)
Definition f_P_scalar_mult : func := mkfunc ["self.x"; "self.y"; "self.z"; "self.t"; "rhs"] [
    (*107*) SCall [] "F::normalize" [AMut "rhs"];
    (*108*) SCall [] "P::scalar_mult_normalized" [AMut "self.x"; AMut "self.y"; AMut "self.z"; AMut "self.t"; AVal "rhs"] ]
    [].

(* src/curve/edwards.rs:111-159  Point  P::scalar_mult_normalized *)
Definition f_P_scalar_mult_normalized : func := mkfunc ["self.x"; "self.y"; "self.z"; "self.t"; "rhs"] [
    (*115*) SCall ["%1.x"; "%1.y"; "%1.z"; "%1.t"] "P::zero" [];
    (*115*) "r0.x" <- "%1.x";
    (*115*) "r0.y" <- "%1.y";
    (*115*) "r0.z" <- "%1.z";
    (*115*) "r0.t" <- "%1.t";
    (*116*) "r1.x" <- "self.x";
    (*116*) "r1.y" <- "self.y";
    (*116*) "r1.z" <- "self.z";
    (*116*) "r1.t" <- "self.t";
    (*117*) SCall ["nbits"] "F::nbits" [];
    (*119*) SFor "i" #0 "nbits" [
      (*120*) "idx" <- EUSub (EUSub "nbits" #1) "i";
      (*121*) SCall ["bit"] "F::bit_normalized" [AVal "rhs"; AVal "idx"];
      (*124*) SCall ["tmask"] "F::filled" [AVal "bit"];
      (*125*) SCall ["fmask"] "F::filled" [AVal (ENot "bit")];
      (*126*) "d0.x" <- "r0.x";
      (*126*) "d0.y" <- "r0.y";
      (*126*) "d0.z" <- "r0.z";
      (*126*) "d0.t" <- "r0.t";
      (*127*) "d1.x" <- "r1.x";
      (*127*) "d1.y" <- "r1.y";
      (*127*) "d1.z" <- "r1.z";
      (*127*) "d1.t" <- "r1.t";
      (*130*) SCall [] "P::add_assign(P)" [AMut "r0.x"; AMut "r0.y"; AMut "r0.z"; AMut "r0.t"; AVal "r1.x"; AVal "r1.y"; AVal "r1.z"; AVal "r1.t"];
      (*131*) "r1.x" <- "r0.x";
      (*131*) "r1.y" <- "r0.y";
      (*131*) "r1.z" <- "r0.z";
      (*131*) "r1.t" <- "r0.t";
      (*134*) SCall [] "P::normalized_bitand" [AMut "d0.x"; AMut "d0.y"; AMut "d0.z"; AMut "d0.t"; AVal "tmask"];
      (*135*) SCall [] "P::normalized_bitand" [AMut "d1.x"; AMut "d1.y"; AMut "d1.z"; AMut "d1.t"; AVal "fmask"];
      (*136*) SCall [] "P::normalized_bitor" [AMut "d0.x"; AMut "d0.y"; AMut "d0.z"; AMut "d0.t"; AVal "d1.x"; AVal "d1.y"; AVal "d1.z"; AVal "d1.t"];
      (*139*) SCall [] "P::double" [AMut "d0.x"; AMut "d0.y"; AMut "d0.z"; AMut "d0.t"];
      (*142*) "d1.x" <- "d0.x";
      (*142*) "d1.y" <- "d0.y";
      (*142*) "d1.z" <- "d0.z";
      (*142*) "d1.t" <- "d0.t";
      (*145*) SCall [] "P::normalized_bitand" [AMut "r0.x"; AMut "r0.y"; AMut "r0.z"; AMut "r0.t"; AVal "fmask"];
      (*146*) SCall [] "P::normalized_bitand" [AMut "d0.x"; AMut "d0.y"; AMut "d0.z"; AMut "d0.t"; AVal "tmask"];
      (*147*) SCall [] "P::normalized_bitor" [AMut "r0.x"; AMut "r0.y"; AMut "r0.z"; AMut "r0.t"; AVal "d0.x"; AVal "d0.y"; AVal "d0.z"; AVal "d0.t"];
      (*150*) SCall [] "P::normalized_bitand" [AMut "r1.x"; AMut "r1.y"; AMut "r1.z"; AMut "r1.t"; AVal "tmask"];
      (*151*) SCall [] "P::normalized_bitand" [AMut "d1.x"; AMut "d1.y"; AMut "d1.z"; AMut "d1.t"; AVal "fmask"];
      (*152*) SCall [] "P::normalized_bitor" [AMut "r1.x"; AMut "r1.y"; AMut "r1.z"; AMut "r1.t"; AVal "d1.x"; AVal "d1.y"; AVal "d1.z"; AVal "d1.t"] ];
    (*155*) "self.x" <- "r0.x";
    (*156*) "self.y" <- "r0.y";
    (*157*) "self.z" <- "r0.z";
    (*158*) "self.t" <- "r0.t" ]
    [].

(* src/curve/edwards.rs:161-179  Point  P::double *)
Definition f_P_double : func := mkfunc ["self.x"; "self.y"; "self.z"; "self.t"] [
    (*162*) SCall ["a"] "F::squared" [AVal "self.x"];
    (*163*) SCall ["b"] "F::squared" [AVal "self.y"];
    (*164*) SCall ["%3"] "F::squared" [AVal "self.z"];
    (*164*) SCall ["c"] "F::small_mul" [AVal "%3"; AVal #2];
    (*165*) "d" <- "a";
    (*166*) SCall ["%5"] "F::add(F)" [AVal "self.x"; AVal "self.y"];
    (*166*) SCall ["%6"] "F::squared" [AVal "%5"];
    (*166*) SCall ["%7"] "F::sub(F)" [AVal "%6"; AVal "a"];
    (*166*) SCall ["e"] "F::sub(F)" [AVal "%7"; AVal "b"];
    (*167*) SCall ["g"] "F::add(F)" [AVal "d"; AVal "b"];
    (*168*) SCall ["f"] "F::sub(F)" [AVal "g"; AVal "c"];
    (*169*) SCall ["h"] "F::sub(F)" [AVal "d"; AVal "b"];
    (*170*) SCall ["x3"] "F::mul(F)" [AVal "e"; AVal "f"];
    (*171*) SCall ["y3"] "F::mul(F)" [AVal "g"; AVal "h"];
    (*172*) SCall ["z3"] "F::mul(F)" [AVal "f"; AVal "g"];
    (*173*) SCall ["t3"] "F::mul(F)" [AVal "e"; AVal "h"];
    (*175*) "self.x" <- "x3";
    (*176*) "self.y" <- "y3";
    (*177*) "self.z" <- "z3";
    (*178*) "self.t" <- "t3" ]
    [].

(* src/curve/edwards.rs:181-185  Point  P::doubled *)
Definition f_P_doubled : func := mkfunc ["self.x"; "self.y"; "self.z"; "self.t"] [
    (*182*) "out.x" <- "self.x";
    (*182*) "out.y" <- "self.y";
    (*182*) "out.z" <- "self.z";
    (*182*) "out.t" <- "self.t";
    (*183*) SCall [] "P::double" [AMut "out.x"; AMut "out.y"; AMut "out.z"; AMut "out.t"] ]
    [EVar "out.x"; EVar "out.y"; EVar "out.z"; EVar "out.t"].

(* src/curve/edwards.rs:187-210  Point  P::triple *)
Definition f_P_triple : func := mkfunc ["self.x"; "self.y"; "self.z"; "self.t"] [
    (*188*) SCall ["yy"] "F::squared" [AVal "self.y"];
    (*189*) SCall ["xx"] "F::squared" [AVal "self.x"];
    (*190*) SCall ["ap"] "F::add(F)" [AVal "yy"; AVal "xx"];
    (*191*) SCall ["%4"] "F::squared" [AVal "self.z"];
    (*191*) SCall ["%5"] "F::small_mul" [AVal "%4"; AVal #2];
    (*191*) SCall ["%6"] "F::sub(F)" [AVal "%5"; AVal "ap"];
    (*191*) SCall ["b"] "F::small_mul" [AVal "%6"; AVal #2];
    (*192*) SCall ["xb"] "F::mul(F)" [AVal "xx"; AVal "b"];
    (*193*) SCall ["yb"] "F::mul(F)" [AVal "yy"; AVal "b"];
    (*194*) SCall ["%10"] "F::sub(F)" [AVal "yy"; AVal "xx"];
    (*194*) SCall ["aa"] "F::mul(F)" [AVal "ap"; AVal "%10"];
    (*195*) SCall ["f"] "F::sub(F)" [AVal "aa"; AVal "yb"];
    (*196*) SCall ["g"] "F::sub(F)" [AVal "aa"; AVal "xb"];
    (*197*) SCall ["%14"] "F::add(F)" [AVal "yb"; AVal "aa"];
    (*197*) SCall ["xe"] "F::mul(F)" [AVal "self.x"; AVal "%14"];
    (*198*) SCall ["%16"] "F::sub(F)" [AVal "xb"; AVal "aa"];
    (*198*) SCall ["yh"] "F::mul(F)" [AVal "self.y"; AVal "%16"];
    (*199*) SCall ["zf"] "F::mul(F)" [AVal "self.z"; AVal "f"];
    (*200*) SCall ["zg"] "F::mul(F)" [AVal "self.z"; AVal "g"];
    (*201*) SCall ["x3"] "F::mul(F)" [AVal "xe"; AVal "zf"];
    (*202*) SCall ["y3"] "F::mul(F)" [AVal "yh"; AVal "zg"];
    (*203*) SCall ["z3"] "F::mul(F)" [AVal "zf"; AVal "zg"];
    (*204*) SCall ["t3"] "F::mul(F)" [AVal "xe"; AVal "yh"];
    (*206*) "self.x" <- "x3";
    (*207*) "self.y" <- "y3";
    (*208*) "self.z" <- "z3";
    (*209*) "self.t" <- "t3" ]
    [].

(* src/curve/edwards.rs:212-216  Point  P::tripled *)
Definition f_P_tripled : func := mkfunc ["self.x"; "self.y"; "self.z"; "self.t"] [
    (*213*) "out.x" <- "self.x";
    (*213*) "out.y" <- "self.y";
    (*213*) "out.z" <- "self.z";
    (*213*) "out.t" <- "self.t";
    (*214*) SCall [] "P::triple" [AMut "out.x"; AMut "out.y"; AMut "out.z"; AMut "out.t"] ]
    [EVar "out.x"; EVar "out.y"; EVar "out.z"; EVar "out.t"].

(* the function table of this file *)
Definition table : list (string * func) := [
  ("P::add_assign(&P)", f_P_add_assign_ref);
  ("P::add_assign(P)", f_P_add_assign_val);
  ("(&P)::add(&P)", f_Pref_add_ref);
  ("P::add(P)", f_P_add_val);
  ("P::normalized_bitand", f_P_normalized_bitand);
  ("P::normalized_bitor", f_P_normalized_bitor);
  ("P::zero", f_P_zero);
  ("P::init", f_P_init);
  ("P::scalar_mult", f_P_scalar_mult);
  ("P::scalar_mult_normalized", f_P_scalar_mult_normalized);
  ("P::double", f_P_double);
  ("P::doubled", f_P_doubled);
  ("P::triple", f_P_triple);
  ("P::tripled", f_P_tripled)].
