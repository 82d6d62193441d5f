(* Generated by tools/rust2coq.py from src/field/mod_e414_17.rs -- do not edit.
   One definition per item; each statement is preceded by its source line. *)
From Coq Require Import ZArith List String.
From Verif Require Import Lang.
Import ListNotations LangNotations.
Local Open Scope Z_scope.
Local Open Scope string_scope.

(* src/field/mod_e414_17.rs:41 *)
Definition C_VAL : Z := 17.

(* src/field/mod_e414_17.rs:44-44 *)
Definition ZERO : list Z := [0; 0; 0; 0; 0; 0; 0; 0].

(* src/field/mod_e414_17.rs:47-47 *)
Definition ONE : list Z := [1; 0; 0; 0; 0; 0; 0; 0].

(* src/field/mod_e414_17.rs:50-54 *)
Definition M_ONE : list Z := [0x00ffffffffffffee; 0x00ffffffffffffff; 0x00ffffffffffffff; 0x00ffffffffffffff; 0x00ffffffffffffff; 0x00ffffffffffffff; 0x00ffffffffffffff; 0x00000000003fffff].

(* src/field/mod_e414_17.rs:57-61 *)
Definition MODULUS : list Z := [0x00ffffffffffffef; 0x00ffffffffffffff; 0x00ffffffffffffff; 0x00ffffffffffffff; 0x00ffffffffffffff; 0x00ffffffffffffff; 0x00ffffffffffffff; 0x00000000003fffff].

(* src/field/mod_e414_17.rs:65-66 *)
Definition CURVE41417_D : list Z := [3617; 0; 0; 0; 0; 0; 0; 0].

(* src/field/mod_e414_17.rs:71-75 *)
Definition CURVE41417_BASE_X : list Z := [0x00fd3812f3cbc595; 0x0073faa8537c64c4; 0x004d6d6ba111301a; 0x00f57ff35498a4ab; 0x0046369f44c03ec7; 0x00c0631c326e5fcd; 0x0005141443300218; 0x00000000001a3349].

(* src/field/mod_e414_17.rs:78-79 *)
Definition CURVE41417_BASE_Y : list Z := [0x22; 0; 0; 0; 0; 0; 0; 0].

(* src/field/mod_e414_17.rs:83-87 *)
Definition CURVE41417_ORDER : list Z := [0x000e71a5e106af79; 0x000338ad63cf181b; 0x00cf706022b36f1c; 0x00ffffeb3cc92414; 0x00ffffffffffffff; 0x00ffffffffffffff; 0x00ffffffffffffff; 0x000000000007ffff].

(* src/field/mod_e414_17.rs:131-133  inherent F::carry_out (one-line method, kept as a macro on its receiver) *)
Definition carry_out (self : expr) : expr := self.[#7] .>> #22.

(* src/field/mod_e414_17.rs:90-98  Debug  F::Debug::fmt *)
Definition f_Debug_fmt : func := mkfunc ["self"; "f"] [
    (*91*) SPushStr "f" "Mod_e414_17: [ ";
    (*91*) SPushHex "f" false false 64 ("self".[#0]);
    (*93*) SFor "i" #1 #8 [
      (*94*) SPushStr "f" ", ";
      (*94*) SPushHex "f" false false 64 ("self".["i"]) ];
    (*97*) SPushStr "f" " ]" ]
    [].

(* src/field/mod_e414_17.rs:102-111  LowerHex  F::LowerHex::fmt *)
Definition f_LowerHex_fmt : func := mkfunc ["self"; "f"] [
    (*103*) "cpy" <- "self";
    (*104*) SCall ["bytes"] "F::packed" [AMut "cpy"];
    (*106*) SFor "i" #0 #52 [
      (*107*) SPushHex "f" false true 8 ("bytes".[EUSub #51 "i"]) ] ]
    [].

(* src/field/mod_e414_17.rs:115-124  UpperHex  F::UpperHex::fmt *)
Definition f_UpperHex_fmt : func := mkfunc ["self"; "f"] [
    (*116*) "cpy" <- "self";
    (*117*) SCall ["bytes"] "F::packed" [AMut "cpy"];
    (*119*) SFor "i" #0 #52 [
      (*120*) SPushHex "f" true true 8 ("bytes".[EUSub #51 "i"]) ] ]
    [].

(* src/field/mod_e414_17.rs:137-141  inherent  F::packed *)
Definition f_packed : func := mkfunc ["self"] [
    (*138*) "out" <- ERep #0 52;
    (*139*) SCall [] "F::pack" [AMut "self"; AMut "out"] ]
    [EVar "out"].

(* src/field/mod_e414_17.rs:147-152  Neg  F::neg *)
Definition f_neg : func := mkfunc ["self"] [
    (*148*) "out" <- "self";
    (*150*) SCall [] "F::add_assign(&F)" [AMut "out"; AVal (ELit MODULUS)] ]
    [EVar "out"].

(* src/field/mod_e414_17.rs:156-200  AddAssign<&F>  F::add_assign(&F) *)
Definition f_add_assign_ref : func := mkfunc ["self"; "rhs"] [
    (*157*) "a0" <- "self".[#0];
    (*158*) "a1" <- "self".[#1];
    (*159*) "a2" <- "self".[#2];
    (*160*) "a3" <- "self".[#3];
    (*161*) "a4" <- "self".[#4];
    (*162*) "a5" <- "self".[#5];
    (*163*) "a6" <- "self".[#6];
    (*164*) "a7" <- ("self".[#7]) .& #0x00000000003fffff;
    (*166*) "b0" <- "rhs".[#0];
    (*167*) "b1" <- "rhs".[#1];
    (*168*) "b2" <- "rhs".[#2];
    (*169*) "b3" <- "rhs".[#3];
    (*170*) "b4" <- "rhs".[#4];
    (*171*) "b5" <- "rhs".[#5];
    (*172*) "b6" <- "rhs".[#6];
    (*173*) "b7" <- ("rhs".[#7]) .& #0x00000000003fffff;
    (*175*) "cin" <- (carry_out "self") .+ (carry_out "rhs");
    (*176*) "s0" <- ("a0" .+ "b0") .+ ("cin" .* (EInt C_VAL));
    (*177*) "c0" <- "s0" .>> #56;
    (*178*) "s1" <- ("a1" .+ "b1") .+ "c0";
    (*179*) "c1" <- "s1" .>> #56;
    (*180*) "s2" <- ("a2" .+ "b2") .+ "c1";
    (*181*) "c2" <- "s2" .>> #56;
    (*182*) "s3" <- ("a3" .+ "b3") .+ "c2";
    (*183*) "c3" <- "s3" .>> #56;
    (*184*) "s4" <- ("a4" .+ "b4") .+ "c3";
    (*185*) "c4" <- "s4" .>> #56;
    (*186*) "s5" <- ("a5" .+ "b5") .+ "c4";
    (*187*) "c5" <- "s5" .>> #56;
    (*188*) "s6" <- ("a6" .+ "b6") .+ "c5";
    (*189*) "c6" <- "s6" .>> #56;
    (*190*) "s7" <- ("a7" .+ "b7") .+ "c6";
    (*192*) SSet "self" #0 ("s0" .& #0x00ffffffffffffff);
    (*193*) SSet "self" #1 ("s1" .& #0x00ffffffffffffff);
    (*194*) SSet "self" #2 ("s2" .& #0x00ffffffffffffff);
    (*195*) SSet "self" #3 ("s3" .& #0x00ffffffffffffff);
    (*196*) SSet "self" #4 ("s4" .& #0x00ffffffffffffff);
    (*197*) SSet "self" #5 ("s5" .& #0x00ffffffffffffff);
    (*198*) SSet "self" #6 ("s6" .& #0x00ffffffffffffff);
    (*199*) SSet "self" #7 ("s7") ]
    [].

(* src/field/mod_e414_17.rs:204-206  AddAssign<F>  F::add_assign(F) *)
Definition f_add_assign_val : func := mkfunc ["self"; "rhs"] [
    (*205*) SCall [] "F::add_assign(&F)" [AMut "self"; AVal "rhs"] ]
    [].

(* src/field/mod_e414_17.rs:210-212  AddAssign<i32>  F::add_assign(i32) *)
Definition f_add_assign_i32 : func := mkfunc ["self"; "rhs"] [
    (*211*) SCall [] "F::small_add_assign" [AMut "self"; AVal "rhs"] ]
    [].

(* src/field/mod_e414_17.rs:216-218  AddAssign<i16>  F::add_assign(i16) *)
Definition f_add_assign_i16 : func := mkfunc ["self"; "rhs"] [
    (*217*) SCall [] "F::small_add_assign" [AMut "self"; AVal (ECast I32 "rhs")] ]
    [].

(* src/field/mod_e414_17.rs:222-224  AddAssign<i8>  F::add_assign(i8) *)
Definition f_add_assign_i8 : func := mkfunc ["self"; "rhs"] [
    (*223*) SCall [] "F::small_add_assign" [AMut "self"; AVal (ECast I32 "rhs")] ]
    [].

(* src/field/mod_e414_17.rs:230-234  Add<&F>  (&F)::add(&F) *)
Definition f_ref_add_ref : func := mkfunc ["self"; "a"] [
    (*231*) "out" <- "self";
    (*232*) SCall [] "F::add_assign(&F)" [AMut "out"; AVal "a"] ]
    [EVar "out"].

(* src/field/mod_e414_17.rs:240-242  Add<F>  F::add(F) *)
Definition f_add_val : func := mkfunc ["self"; "a"] [
    (*241*) SCall ["%1"] "(&F)::add(&F)" [AVal "self"; AVal "a"] ]
    [EVar "%1"].

(* src/field/mod_e414_17.rs:248-250  Add<&F>  i32::add(&F) *)
Definition f_i32_add_ref : func := mkfunc ["self"; "a"] [
    (*249*) SCall ["%1"] "F::small_add" [AVal "a"; AVal "self"] ]
    [EVar "%1"].

(* src/field/mod_e414_17.rs:256-258  Add<&F>  i16::add(&F) *)
Definition f_i16_add_ref : func := mkfunc ["self"; "a"] [
    (*257*) SCall ["%1"] "F::small_add" [AVal "a"; AVal (ECast I32 "self")] ]
    [EVar "%1"].

(* src/field/mod_e414_17.rs:264-266  Add<&F>  i8::add(&F) *)
Definition f_i8_add_ref : func := mkfunc ["self"; "a"] [
    (*265*) SCall ["%1"] "F::small_add" [AVal "a"; AVal (ECast I32 "self")] ]
    [EVar "%1"].

(* src/field/mod_e414_17.rs:272-274  Add<i32>  (&F)::add(i32) *)
Definition f_ref_add_i32 : func := mkfunc ["self"; "a"] [
    (*273*) SCall ["%1"] "F::small_add" [AVal "self"; AVal "a"] ]
    [EVar "%1"].

(* src/field/mod_e414_17.rs:280-282  Add<i16>  (&F)::add(i16) *)
Definition f_ref_add_i16 : func := mkfunc ["self"; "a"] [
    (*281*) SCall ["%1"] "F::small_add" [AVal "self"; AVal (ECast I32 "a")] ]
    [EVar "%1"].

(* src/field/mod_e414_17.rs:288-290  Add<i8>  (&F)::add(i8) *)
Definition f_ref_add_i8 : func := mkfunc ["self"; "a"] [
    (*289*) SCall ["%1"] "F::small_add" [AVal "self"; AVal (ECast I32 "a")] ]
    [EVar "%1"].

(* src/field/mod_e414_17.rs:296-298  Add<i32>  F::add(i32) *)
Definition f_add_i32 : func := mkfunc ["self"; "a"] [
    (*297*) SCall ["%1"] "(&F)::add(i32)" [AVal "self"; AVal "a"] ]
    [EVar "%1"].

(* src/field/mod_e414_17.rs:304-306  Add<i16>  F::add(i16) *)
Definition f_add_i16 : func := mkfunc ["self"; "a"] [
    (*305*) SCall ["%1"] "(&F)::add(i16)" [AVal "self"; AVal "a"] ]
    [EVar "%1"].

(* src/field/mod_e414_17.rs:312-314  Add<i8>  F::add(i8) *)
Definition f_add_i8 : func := mkfunc ["self"; "a"] [
    (*313*) SCall ["%1"] "(&F)::add(i8)" [AVal "self"; AVal "a"] ]
    [EVar "%1"].

(* src/field/mod_e414_17.rs:318-320  DivAssign<&F>  F::div_assign(&F) *)
Definition f_div_assign_ref : func := mkfunc ["self"; "rhs"] [
    (*319*) SCall ["%1"] "F::inverted" [AVal "rhs"];
    (*319*) SCall [] "F::mul_assign(&F)" [AMut "self"; AVal "%1"] ]
    [].

(* src/field/mod_e414_17.rs:324-326  DivAssign<F>  F::div_assign(F) *)
Definition f_div_assign_val : func := mkfunc ["self"; "rhs"] [
    (*325*) SCall [] "F::div_assign(&F)" [AMut "self"; AVal "rhs"] ]
    [].

(* src/field/mod_e414_17.rs:332-336  Div<&F>  (&F)::div(&F) *)
Definition f_ref_div_ref : func := mkfunc ["self"; "a"] [
    (*333*) "out" <- "self";
    (*334*) SCall [] "F::div_assign(&F)" [AMut "out"; AVal "a"] ]
    [EVar "out"].

(* src/field/mod_e414_17.rs:342-344  Div<F>  F::div(F) *)
Definition f_div_val : func := mkfunc ["self"; "a"] [
    (*343*) SCall ["%1"] "(&F)::div(&F)" [AVal "self"; AVal "a"] ]
    [EVar "%1"].

(* src/field/mod_e414_17.rs:348-392  SubAssign<&F>  F::sub_assign(&F) *)
Definition f_sub_assign_ref : func := mkfunc ["self"; "rhs"] [
    (*349*) "a0" <- "self".[#0];
    (*350*) "a1" <- "self".[#1];
    (*351*) "a2" <- "self".[#2];
    (*352*) "a3" <- "self".[#3];
    (*353*) "a4" <- "self".[#4];
    (*354*) "a5" <- "self".[#5];
    (*355*) "a6" <- "self".[#6];
    (*356*) "a7" <- ("self".[#7]) .& #0x00000000003fffff;
    (*358*) "b0" <- "rhs".[#0];
    (*359*) "b1" <- "rhs".[#1];
    (*360*) "b2" <- "rhs".[#2];
    (*361*) "b3" <- "rhs".[#3];
    (*362*) "b4" <- "rhs".[#4];
    (*363*) "b5" <- "rhs".[#5];
    (*364*) "b6" <- "rhs".[#6];
    (*365*) "b7" <- ("rhs".[#7]) .& #0x00000000003fffff;
    (*367*) "cin" <- (carry_out "self") .+ (carry_out "rhs");
    (*368*) "s0" <- ("a0" .- "b0") .+ ("cin" .* (EInt C_VAL));
    (*369*) "c0" <- "s0" .>> #56;
    (*370*) "s1" <- ("a1" .- "b1") .+ "c0";
    (*371*) "c1" <- "s1" .>> #56;
    (*372*) "s2" <- ("a2" .- "b2") .+ "c1";
    (*373*) "c2" <- "s2" .>> #56;
    (*374*) "s3" <- ("a3" .- "b3") .+ "c2";
    (*375*) "c3" <- "s3" .>> #56;
    (*376*) "s4" <- ("a4" .- "b4") .+ "c3";
    (*377*) "c4" <- "s4" .>> #56;
    (*378*) "s5" <- ("a5" .- "b5") .+ "c4";
    (*379*) "c5" <- "s5" .>> #56;
    (*380*) "s6" <- ("a6" .- "b6") .+ "c5";
    (*381*) "c6" <- "s6" .>> #56;
    (*382*) "s7" <- ("a7" .- "b7") .+ "c6";
    (*384*) SSet "self" #0 ("s0" .& #0x00ffffffffffffff);
    (*385*) SSet "self" #1 ("s1" .& #0x00ffffffffffffff);
    (*386*) SSet "self" #2 ("s2" .& #0x00ffffffffffffff);
    (*387*) SSet "self" #3 ("s3" .& #0x00ffffffffffffff);
    (*388*) SSet "self" #4 ("s4" .& #0x00ffffffffffffff);
    (*389*) SSet "self" #5 ("s5" .& #0x00ffffffffffffff);
    (*390*) SSet "self" #6 ("s6" .& #0x00ffffffffffffff);
    (*391*) SSet "self" #7 ("s7") ]
    [].

(* src/field/mod_e414_17.rs:396-398  SubAssign<F>  F::sub_assign(F) *)
Definition f_sub_assign_val : func := mkfunc ["self"; "rhs"] [
    (*397*) SCall [] "F::sub_assign(&F)" [AMut "self"; AVal "rhs"] ]
    [].

(* src/field/mod_e414_17.rs:402-404  SubAssign<i32>  F::sub_assign(i32) *)
Definition f_sub_assign_i32 : func := mkfunc ["self"; "rhs"] [
    (*403*) SCall [] "F::small_sub_assign" [AMut "self"; AVal "rhs"] ]
    [].

(* src/field/mod_e414_17.rs:408-410  SubAssign<i16>  F::sub_assign(i16) *)
Definition f_sub_assign_i16 : func := mkfunc ["self"; "rhs"] [
    (*409*) SCall [] "F::small_sub_assign" [AMut "self"; AVal (ECast I32 "rhs")] ]
    [].

(* src/field/mod_e414_17.rs:414-416  SubAssign<i8>  F::sub_assign(i8) *)
Definition f_sub_assign_i8 : func := mkfunc ["self"; "rhs"] [
    (*415*) SCall [] "F::small_sub_assign" [AMut "self"; AVal (ECast I32 "rhs")] ]
    [].

(* src/field/mod_e414_17.rs:422-424  Sub<i32>  F::sub(i32) *)
Definition f_sub_i32 : func := mkfunc ["self"; "a"] [
    (*423*) SCall ["%1"] "(&F)::sub(i32)" [AVal "self"; AVal "a"] ]
    [EVar "%1"].

(* src/field/mod_e414_17.rs:430-432  Sub<i16>  F::sub(i16) *)
Definition f_sub_i16 : func := mkfunc ["self"; "a"] [
    (*431*) SCall ["%1"] "(&F)::sub(i16)" [AVal "self"; AVal "a"] ]
    [EVar "%1"].

(* src/field/mod_e414_17.rs:438-440  Sub<i8>  F::sub(i8) *)
Definition f_sub_i8 : func := mkfunc ["self"; "a"] [
    (*439*) SCall ["%1"] "(&F)::sub(i8)" [AVal "self"; AVal "a"] ]
    [EVar "%1"].

(* src/field/mod_e414_17.rs:446-450  Sub<&F>  (&F)::sub(&F) *)
Definition f_ref_sub_ref : func := mkfunc ["self"; "a"] [
    (*447*) "out" <- "self";
    (*448*) SCall [] "F::sub_assign(&F)" [AMut "out"; AVal "a"] ]
    [EVar "out"].

(* src/field/mod_e414_17.rs:456-458  Sub<F>  F::sub(F) *)
Definition f_sub_val : func := mkfunc ["self"; "a"] [
    (*457*) SCall ["%1"] "(&F)::sub(&F)" [AVal "self"; AVal "a"] ]
    [EVar "%1"].

(* src/field/mod_e414_17.rs:464-466  Sub<i32>  (&F)::sub(i32) *)
Definition f_ref_sub_i32 : func := mkfunc ["self"; "a"] [
    (*465*) SCall ["%1"] "F::small_sub" [AVal "self"; AVal "a"] ]
    [EVar "%1"].

(* src/field/mod_e414_17.rs:472-474  Sub<i16>  (&F)::sub(i16) *)
Definition f_ref_sub_i16 : func := mkfunc ["self"; "a"] [
    (*473*) SCall ["%1"] "F::small_sub" [AVal "self"; AVal (ECast I32 "a")] ]
    [EVar "%1"].

(* src/field/mod_e414_17.rs:480-482  Sub<i8>  (&F)::sub(i8) *)
Definition f_ref_sub_i8 : func := mkfunc ["self"; "a"] [
    (*481*) SCall ["%1"] "F::small_sub" [AVal "self"; AVal (ECast I32 "a")] ]
    [EVar "%1"].

(* src/field/mod_e414_17.rs:486-488  MulAssign<i32>  F::mul_assign(i32) *)
Definition f_mul_assign_i32 : func := mkfunc ["self"; "rhs"] [
    (*487*) SCall [] "F::small_mul_assign" [AMut "self"; AVal "rhs"] ]
    [].

(* src/field/mod_e414_17.rs:492-494  MulAssign<i16>  F::mul_assign(i16) *)
Definition f_mul_assign_i16 : func := mkfunc ["self"; "rhs"] [
    (*493*) SCall [] "F::small_mul_assign" [AMut "self"; AVal (ECast I32 "rhs")] ]
    [].

(* src/field/mod_e414_17.rs:498-500  MulAssign<i8>  F::mul_assign(i8) *)
Definition f_mul_assign_i8 : func := mkfunc ["self"; "rhs"] [
    (*499*) SCall [] "F::small_mul_assign" [AMut "self"; AVal (ECast I32 "rhs")] ]
    [].

(* src/field/mod_e414_17.rs:504-974  MulAssign<&F>  F::mul_assign(&F) *)
Definition f_mul_assign_ref : func := mkfunc ["self"; "rhs"] [
    (*505*) "a0" <- ("self".[#0]) .& #0x0fffffff;
    (*506*) "a1" <- ("self".[#0]) .>> #28;
    (*507*) "a2" <- ("self".[#1]) .& #0x0fffffff;
    (*508*) "a3" <- ("self".[#1]) .>> #28;
    (*509*) "a4" <- ("self".[#2]) .& #0x0fffffff;
    (*510*) "a5" <- ("self".[#2]) .>> #28;
    (*511*) "a6" <- ("self".[#3]) .& #0x0fffffff;
    (*512*) "a7" <- ("self".[#3]) .>> #28;
    (*513*) "a8" <- ("self".[#4]) .& #0x0fffffff;
    (*514*) "a9" <- ("self".[#4]) .>> #28;
    (*515*) "a10" <- ("self".[#5]) .& #0x0fffffff;
    (*516*) "a11" <- ("self".[#5]) .>> #28;
    (*517*) "a12" <- ("self".[#6]) .& #0x0fffffff;
    (*518*) "a13" <- ("self".[#6]) .>> #28;
    (*519*) "a14" <- "self".[#7];
    (*521*) "b0" <- ("rhs".[#0]) .& #0x0fffffff;
    (*522*) "b1" <- ("rhs".[#0]) .>> #28;
    (*523*) "b2" <- ("rhs".[#1]) .& #0x0fffffff;
    (*524*) "b3" <- ("rhs".[#1]) .>> #28;
    (*525*) "b4" <- ("rhs".[#2]) .& #0x0fffffff;
    (*526*) "b5" <- ("rhs".[#2]) .>> #28;
    (*527*) "b6" <- ("rhs".[#3]) .& #0x0fffffff;
    (*528*) "b7" <- ("rhs".[#3]) .>> #28;
    (*529*) "b8" <- ("rhs".[#4]) .& #0x0fffffff;
    (*530*) "b9" <- ("rhs".[#4]) .>> #28;
    (*531*) "b10" <- ("rhs".[#5]) .& #0x0fffffff;
    (*532*) "b11" <- ("rhs".[#5]) .>> #28;
    (*533*) "b12" <- ("rhs".[#6]) .& #0x0fffffff;
    (*534*) "b13" <- ("rhs".[#6]) .>> #28;
    (*535*) "b14" <- "rhs".[#7];
    (*538*) "m_0_0" <- "a0" .* "b0";
    (*539*) "m_0_1" <- "a0" .* "b1";
    (*540*) "m_0_2" <- "a0" .* "b2";
    (*541*) "m_0_3" <- "a0" .* "b3";
    (*542*) "m_0_4" <- "a0" .* "b4";
    (*543*) "m_0_5" <- "a0" .* "b5";
    (*544*) "m_0_6" <- "a0" .* "b6";
    (*545*) "m_0_7" <- "a0" .* "b7";
    (*546*) "m_0_8" <- "a0" .* "b8";
    (*547*) "m_0_9" <- "a0" .* "b9";
    (*548*) "m_0_10" <- "a0" .* "b10";
    (*549*) "m_0_11" <- "a0" .* "b11";
    (*550*) "m_0_12" <- "a0" .* "b12";
    (*551*) "m_0_13" <- "a0" .* "b13";
    (*552*) "m_0_14" <- "a0" .* "b14";
    (*553*) "m_1_0" <- "a1" .* "b0";
    (*554*) "m_1_1" <- "a1" .* "b1";
    (*555*) "m_1_2" <- "a1" .* "b2";
    (*556*) "m_1_3" <- "a1" .* "b3";
    (*557*) "m_1_4" <- "a1" .* "b4";
    (*558*) "m_1_5" <- "a1" .* "b5";
    (*559*) "m_1_6" <- "a1" .* "b6";
    (*560*) "m_1_7" <- "a1" .* "b7";
    (*561*) "m_1_8" <- "a1" .* "b8";
    (*562*) "m_1_9" <- "a1" .* "b9";
    (*563*) "m_1_10" <- "a1" .* "b10";
    (*564*) "m_1_11" <- "a1" .* "b11";
    (*565*) "m_1_12" <- "a1" .* "b12";
    (*566*) "m_1_13" <- "a1" .* "b13";
    (*567*) "m_1_14" <- "a1" .* "b14";
    (*568*) "m_2_0" <- "a2" .* "b0";
    (*569*) "m_2_1" <- "a2" .* "b1";
    (*570*) "m_2_2" <- "a2" .* "b2";
    (*571*) "m_2_3" <- "a2" .* "b3";
    (*572*) "m_2_4" <- "a2" .* "b4";
    (*573*) "m_2_5" <- "a2" .* "b5";
    (*574*) "m_2_6" <- "a2" .* "b6";
    (*575*) "m_2_7" <- "a2" .* "b7";
    (*576*) "m_2_8" <- "a2" .* "b8";
    (*577*) "m_2_9" <- "a2" .* "b9";
    (*578*) "m_2_10" <- "a2" .* "b10";
    (*579*) "m_2_11" <- "a2" .* "b11";
    (*580*) "m_2_12" <- "a2" .* "b12";
    (*581*) "m_2_13" <- "a2" .* "b13";
    (*582*) "m_2_14" <- "a2" .* "b14";
    (*583*) "m_3_0" <- "a3" .* "b0";
    (*584*) "m_3_1" <- "a3" .* "b1";
    (*585*) "m_3_2" <- "a3" .* "b2";
    (*586*) "m_3_3" <- "a3" .* "b3";
    (*587*) "m_3_4" <- "a3" .* "b4";
    (*588*) "m_3_5" <- "a3" .* "b5";
    (*589*) "m_3_6" <- "a3" .* "b6";
    (*590*) "m_3_7" <- "a3" .* "b7";
    (*591*) "m_3_8" <- "a3" .* "b8";
    (*592*) "m_3_9" <- "a3" .* "b9";
    (*593*) "m_3_10" <- "a3" .* "b10";
    (*594*) "m_3_11" <- "a3" .* "b11";
    (*595*) "m_3_12" <- "a3" .* "b12";
    (*596*) "m_3_13" <- "a3" .* "b13";
    (*597*) "m_3_14" <- "a3" .* "b14";
    (*598*) "m_4_0" <- "a4" .* "b0";
    (*599*) "m_4_1" <- "a4" .* "b1";
    (*600*) "m_4_2" <- "a4" .* "b2";
    (*601*) "m_4_3" <- "a4" .* "b3";
    (*602*) "m_4_4" <- "a4" .* "b4";
    (*603*) "m_4_5" <- "a4" .* "b5";
    (*604*) "m_4_6" <- "a4" .* "b6";
    (*605*) "m_4_7" <- "a4" .* "b7";
    (*606*) "m_4_8" <- "a4" .* "b8";
    (*607*) "m_4_9" <- "a4" .* "b9";
    (*608*) "m_4_10" <- "a4" .* "b10";
    (*609*) "m_4_11" <- "a4" .* "b11";
    (*610*) "m_4_12" <- "a4" .* "b12";
    (*611*) "m_4_13" <- "a4" .* "b13";
    (*612*) "m_4_14" <- "a4" .* "b14";
    (*613*) "m_5_0" <- "a5" .* "b0";
    (*614*) "m_5_1" <- "a5" .* "b1";
    (*615*) "m_5_2" <- "a5" .* "b2";
    (*616*) "m_5_3" <- "a5" .* "b3";
    (*617*) "m_5_4" <- "a5" .* "b4";
    (*618*) "m_5_5" <- "a5" .* "b5";
    (*619*) "m_5_6" <- "a5" .* "b6";
    (*620*) "m_5_7" <- "a5" .* "b7";
    (*621*) "m_5_8" <- "a5" .* "b8";
    (*622*) "m_5_9" <- "a5" .* "b9";
    (*623*) "m_5_10" <- "a5" .* "b10";
    (*624*) "m_5_11" <- "a5" .* "b11";
    (*625*) "m_5_12" <- "a5" .* "b12";
    (*626*) "m_5_13" <- "a5" .* "b13";
    (*627*) "m_5_14" <- "a5" .* "b14";
    (*628*) "m_6_0" <- "a6" .* "b0";
    (*629*) "m_6_1" <- "a6" .* "b1";
    (*630*) "m_6_2" <- "a6" .* "b2";
    (*631*) "m_6_3" <- "a6" .* "b3";
    (*632*) "m_6_4" <- "a6" .* "b4";
    (*633*) "m_6_5" <- "a6" .* "b5";
    (*634*) "m_6_6" <- "a6" .* "b6";
    (*635*) "m_6_7" <- "a6" .* "b7";
    (*636*) "m_6_8" <- "a6" .* "b8";
    (*637*) "m_6_9" <- "a6" .* "b9";
    (*638*) "m_6_10" <- "a6" .* "b10";
    (*639*) "m_6_11" <- "a6" .* "b11";
    (*640*) "m_6_12" <- "a6" .* "b12";
    (*641*) "m_6_13" <- "a6" .* "b13";
    (*642*) "m_6_14" <- "a6" .* "b14";
    (*643*) "m_7_0" <- "a7" .* "b0";
    (*644*) "m_7_1" <- "a7" .* "b1";
    (*645*) "m_7_2" <- "a7" .* "b2";
    (*646*) "m_7_3" <- "a7" .* "b3";
    (*647*) "m_7_4" <- "a7" .* "b4";
    (*648*) "m_7_5" <- "a7" .* "b5";
    (*649*) "m_7_6" <- "a7" .* "b6";
    (*650*) "m_7_7" <- "a7" .* "b7";
    (*651*) "m_7_8" <- "a7" .* "b8";
    (*652*) "m_7_9" <- "a7" .* "b9";
    (*653*) "m_7_10" <- "a7" .* "b10";
    (*654*) "m_7_11" <- "a7" .* "b11";
    (*655*) "m_7_12" <- "a7" .* "b12";
    (*656*) "m_7_13" <- "a7" .* "b13";
    (*657*) "m_7_14" <- "a7" .* "b14";
    (*658*) "m_8_0" <- "a8" .* "b0";
    (*659*) "m_8_1" <- "a8" .* "b1";
    (*660*) "m_8_2" <- "a8" .* "b2";
    (*661*) "m_8_3" <- "a8" .* "b3";
    (*662*) "m_8_4" <- "a8" .* "b4";
    (*663*) "m_8_5" <- "a8" .* "b5";
    (*664*) "m_8_6" <- "a8" .* "b6";
    (*665*) "m_8_7" <- "a8" .* "b7";
    (*666*) "m_8_8" <- "a8" .* "b8";
    (*667*) "m_8_9" <- "a8" .* "b9";
    (*668*) "m_8_10" <- "a8" .* "b10";
    (*669*) "m_8_11" <- "a8" .* "b11";
    (*670*) "m_8_12" <- "a8" .* "b12";
    (*671*) "m_8_13" <- "a8" .* "b13";
    (*672*) "m_8_14" <- "a8" .* "b14";
    (*673*) "m_9_0" <- "a9" .* "b0";
    (*674*) "m_9_1" <- "a9" .* "b1";
    (*675*) "m_9_2" <- "a9" .* "b2";
    (*676*) "m_9_3" <- "a9" .* "b3";
    (*677*) "m_9_4" <- "a9" .* "b4";
    (*678*) "m_9_5" <- "a9" .* "b5";
    (*679*) "m_9_6" <- "a9" .* "b6";
    (*680*) "m_9_7" <- "a9" .* "b7";
    (*681*) "m_9_8" <- "a9" .* "b8";
    (*682*) "m_9_9" <- "a9" .* "b9";
    (*683*) "m_9_10" <- "a9" .* "b10";
    (*684*) "m_9_11" <- "a9" .* "b11";
    (*685*) "m_9_12" <- "a9" .* "b12";
    (*686*) "m_9_13" <- "a9" .* "b13";
    (*687*) "m_9_14" <- "a9" .* "b14";
    (*688*) "m_10_0" <- "a10" .* "b0";
    (*689*) "m_10_1" <- "a10" .* "b1";
    (*690*) "m_10_2" <- "a10" .* "b2";
    (*691*) "m_10_3" <- "a10" .* "b3";
    (*692*) "m_10_4" <- "a10" .* "b4";
    (*693*) "m_10_5" <- "a10" .* "b5";
    (*694*) "m_10_6" <- "a10" .* "b6";
    (*695*) "m_10_7" <- "a10" .* "b7";
    (*696*) "m_10_8" <- "a10" .* "b8";
    (*697*) "m_10_9" <- "a10" .* "b9";
    (*698*) "m_10_10" <- "a10" .* "b10";
    (*699*) "m_10_11" <- "a10" .* "b11";
    (*700*) "m_10_12" <- "a10" .* "b12";
    (*701*) "m_10_13" <- "a10" .* "b13";
    (*702*) "m_10_14" <- "a10" .* "b14";
    (*703*) "m_11_0" <- "a11" .* "b0";
    (*704*) "m_11_1" <- "a11" .* "b1";
    (*705*) "m_11_2" <- "a11" .* "b2";
    (*706*) "m_11_3" <- "a11" .* "b3";
    (*707*) "m_11_4" <- "a11" .* "b4";
    (*708*) "m_11_5" <- "a11" .* "b5";
    (*709*) "m_11_6" <- "a11" .* "b6";
    (*710*) "m_11_7" <- "a11" .* "b7";
    (*711*) "m_11_8" <- "a11" .* "b8";
    (*712*) "m_11_9" <- "a11" .* "b9";
    (*713*) "m_11_10" <- "a11" .* "b10";
    (*714*) "m_11_11" <- "a11" .* "b11";
    (*715*) "m_11_12" <- "a11" .* "b12";
    (*716*) "m_11_13" <- "a11" .* "b13";
    (*717*) "m_11_14" <- "a11" .* "b14";
    (*718*) "m_12_0" <- "a12" .* "b0";
    (*719*) "m_12_1" <- "a12" .* "b1";
    (*720*) "m_12_2" <- "a12" .* "b2";
    (*721*) "m_12_3" <- "a12" .* "b3";
    (*722*) "m_12_4" <- "a12" .* "b4";
    (*723*) "m_12_5" <- "a12" .* "b5";
    (*724*) "m_12_6" <- "a12" .* "b6";
    (*725*) "m_12_7" <- "a12" .* "b7";
    (*726*) "m_12_8" <- "a12" .* "b8";
    (*727*) "m_12_9" <- "a12" .* "b9";
    (*728*) "m_12_10" <- "a12" .* "b10";
    (*729*) "m_12_11" <- "a12" .* "b11";
    (*730*) "m_12_12" <- "a12" .* "b12";
    (*731*) "m_12_13" <- "a12" .* "b13";
    (*732*) "m_12_14" <- "a12" .* "b14";
    (*733*) "m_13_0" <- "a13" .* "b0";
    (*734*) "m_13_1" <- "a13" .* "b1";
    (*735*) "m_13_2" <- "a13" .* "b2";
    (*736*) "m_13_3" <- "a13" .* "b3";
    (*737*) "m_13_4" <- "a13" .* "b4";
    (*738*) "m_13_5" <- "a13" .* "b5";
    (*739*) "m_13_6" <- "a13" .* "b6";
    (*740*) "m_13_7" <- "a13" .* "b7";
    (*741*) "m_13_8" <- "a13" .* "b8";
    (*742*) "m_13_9" <- "a13" .* "b9";
    (*743*) "m_13_10" <- "a13" .* "b10";
    (*744*) "m_13_11" <- "a13" .* "b11";
    (*745*) "m_13_12" <- "a13" .* "b12";
    (*746*) "m_13_13" <- "a13" .* "b13";
    (*747*) "m_13_14" <- "a13" .* "b14";
    (*748*) "m_14_0" <- "a14" .* "b0";
    (*749*) "m_14_1" <- "a14" .* "b1";
    (*750*) "m_14_2" <- "a14" .* "b2";
    (*751*) "m_14_3" <- "a14" .* "b3";
    (*752*) "m_14_4" <- "a14" .* "b4";
    (*753*) "m_14_5" <- "a14" .* "b5";
    (*754*) "m_14_6" <- "a14" .* "b6";
    (*755*) "m_14_7" <- "a14" .* "b7";
    (*756*) "m_14_8" <- "a14" .* "b8";
    (*757*) "m_14_9" <- "a14" .* "b9";
    (*758*) "m_14_10" <- "a14" .* "b10";
    (*759*) "m_14_11" <- "a14" .* "b11";
    (*760*) "m_14_12" <- "a14" .* "b12";
    (*761*) "m_14_13" <- "a14" .* "b13";
    (*762*) "m_14_14" <- "a14" .* "b14";
    (*765*) "d0" <- ("m_0_0" .+ (("m_0_1" .& #0x0fffffff) .<< #28)) .+ (("m_1_0" .& #0x0fffffff) .<< #28);
    (*767*) "c0" <- "d0" .>> #56;
    (*768*) "d1" <- ((((((((("m_0_1" .>> #28) .+ "m_0_2") .+ (("m_0_3" .& #0x0fffffff) .<< #28)) .+ ("m_1_0" .>> #28)) .+ "m_1_1") .+ (("m_1_2" .& #0x0fffffff) .<< #28)) .+ "m_2_0") .+ (("m_2_1" .& #0x0fffffff) .<< #28)) .+ (("m_3_0" .& #0x0fffffff) .<< #28)) .+ "c0";
    (*772*) "c1" <- "d1" .>> #56;
    (*773*) "d2" <- ((((((((((((((("m_0_3" .>> #28) .+ "m_0_4") .+ (("m_0_5" .& #0x0fffffff) .<< #28)) .+ ("m_1_2" .>> #28)) .+ "m_1_3") .+ (("m_1_4" .& #0x0fffffff) .<< #28)) .+ ("m_2_1" .>> #28)) .+ "m_2_2") .+ (("m_2_3" .& #0x0fffffff) .<< #28)) .+ ("m_3_0" .>> #28)) .+ "m_3_1") .+ (("m_3_2" .& #0x0fffffff) .<< #28)) .+ "m_4_0") .+ (("m_4_1" .& #0x0fffffff) .<< #28)) .+ (("m_5_0" .& #0x0fffffff) .<< #28)) .+ "c1";
    (*779*) "c2" <- "d2" .>> #56;
    (*780*) "d3" <- ((((((((((((((((((((("m_0_5" .>> #28) .+ "m_0_6") .+ (("m_0_7" .& #0x0fffffff) .<< #28)) .+ ("m_1_4" .>> #28)) .+ "m_1_5") .+ (("m_1_6" .& #0x0fffffff) .<< #28)) .+ ("m_2_3" .>> #28)) .+ "m_2_4") .+ (("m_2_5" .& #0x0fffffff) .<< #28)) .+ ("m_3_2" .>> #28)) .+ "m_3_3") .+ (("m_3_4" .& #0x0fffffff) .<< #28)) .+ ("m_4_1" .>> #28)) .+ "m_4_2") .+ (("m_4_3" .& #0x0fffffff) .<< #28)) .+ ("m_5_0" .>> #28)) .+ "m_5_1") .+ (("m_5_2" .& #0x0fffffff) .<< #28)) .+ "m_6_0") .+ (("m_6_1" .& #0x0fffffff) .<< #28)) .+ (("m_7_0" .& #0x0fffffff) .<< #28)) .+ "c2";
    (*788*) "c3" <- "d3" .>> #56;
    (*789*) "d4" <- ((((((((((((((((((((((((((("m_0_7" .>> #28) .+ "m_0_8") .+ (("m_0_9" .& #0x0fffffff) .<< #28)) .+ ("m_1_6" .>> #28)) .+ "m_1_7") .+ (("m_1_8" .& #0x0fffffff) .<< #28)) .+ ("m_2_5" .>> #28)) .+ "m_2_6") .+ (("m_2_7" .& #0x0fffffff) .<< #28)) .+ ("m_3_4" .>> #28)) .+ "m_3_5") .+ (("m_3_6" .& #0x0fffffff) .<< #28)) .+ ("m_4_3" .>> #28)) .+ "m_4_4") .+ (("m_4_5" .& #0x0fffffff) .<< #28)) .+ ("m_5_2" .>> #28)) .+ "m_5_3") .+ (("m_5_4" .& #0x0fffffff) .<< #28)) .+ ("m_6_1" .>> #28)) .+ "m_6_2") .+ (("m_6_3" .& #0x0fffffff) .<< #28)) .+ ("m_7_0" .>> #28)) .+ "m_7_1") .+ (("m_7_2" .& #0x0fffffff) .<< #28)) .+ "m_8_0") .+ (("m_8_1" .& #0x0fffffff) .<< #28)) .+ (("m_9_0" .& #0x0fffffff) .<< #28)) .+ "c3";
    (*799*) "c4" <- "d4" .>> #56;
    (*800*) "d5" <- ((((((((((((((((((((((((((((((((("m_0_9" .>> #28) .+ "m_0_10") .+ (("m_0_11" .& #0x0fffffff) .<< #28)) .+ ("m_1_8" .>> #28)) .+ "m_1_9") .+ (("m_1_10" .& #0x0fffffff) .<< #28)) .+ ("m_2_7" .>> #28)) .+ "m_2_8") .+ (("m_2_9" .& #0x0fffffff) .<< #28)) .+ ("m_3_6" .>> #28)) .+ "m_3_7") .+ (("m_3_8" .& #0x0fffffff) .<< #28)) .+ ("m_4_5" .>> #28)) .+ "m_4_6") .+ (("m_4_7" .& #0x0fffffff) .<< #28)) .+ ("m_5_4" .>> #28)) .+ "m_5_5") .+ (("m_5_6" .& #0x0fffffff) .<< #28)) .+ ("m_6_3" .>> #28)) .+ "m_6_4") .+ (("m_6_5" .& #0x0fffffff) .<< #28)) .+ ("m_7_2" .>> #28)) .+ "m_7_3") .+ (("m_7_4" .& #0x0fffffff) .<< #28)) .+ ("m_8_1" .>> #28)) .+ "m_8_2") .+ (("m_8_3" .& #0x0fffffff) .<< #28)) .+ ("m_9_0" .>> #28)) .+ "m_9_1") .+ (("m_9_2" .& #0x0fffffff) .<< #28)) .+ "m_10_0") .+ (("m_10_1" .& #0x0fffffff) .<< #28)) .+ (("m_11_0" .& #0x0fffffff) .<< #28)) .+ "c4";
    (*812*) "c5" <- "d5" .>> #56;
    (*813*) "d6" <- ((((((((((((((((((((((((((((((((((((((("m_0_11" .>> #28) .+ "m_0_12") .+ (("m_0_13" .& #0x0fffffff) .<< #28)) .+ ("m_1_10" .>> #28)) .+ "m_1_11") .+ (("m_1_12" .& #0x0fffffff) .<< #28)) .+ ("m_2_9" .>> #28)) .+ "m_2_10") .+ (("m_2_11" .& #0x0fffffff) .<< #28)) .+ ("m_3_8" .>> #28)) .+ "m_3_9") .+ (("m_3_10" .& #0x0fffffff) .<< #28)) .+ ("m_4_7" .>> #28)) .+ "m_4_8") .+ (("m_4_9" .& #0x0fffffff) .<< #28)) .+ ("m_5_6" .>> #28)) .+ "m_5_7") .+ (("m_5_8" .& #0x0fffffff) .<< #28)) .+ ("m_6_5" .>> #28)) .+ "m_6_6") .+ (("m_6_7" .& #0x0fffffff) .<< #28)) .+ ("m_7_4" .>> #28)) .+ "m_7_5") .+ (("m_7_6" .& #0x0fffffff) .<< #28)) .+ ("m_8_3" .>> #28)) .+ "m_8_4") .+ (("m_8_5" .& #0x0fffffff) .<< #28)) .+ ("m_9_2" .>> #28)) .+ "m_9_3") .+ (("m_9_4" .& #0x0fffffff) .<< #28)) .+ ("m_10_1" .>> #28)) .+ "m_10_2") .+ (("m_10_3" .& #0x0fffffff) .<< #28)) .+ ("m_11_0" .>> #28)) .+ "m_11_1") .+ (("m_11_2" .& #0x0fffffff) .<< #28)) .+ "m_12_0") .+ (("m_12_1" .& #0x0fffffff) .<< #28)) .+ (("m_13_0" .& #0x0fffffff) .<< #28)) .+ "c5";
    (*827*) "c6" <- "d6" .>> #56;
    (*828*) "d7" <- ((((((((((((((((((((((((((((((((((((((((((("m_0_13" .>> #28) .+ "m_0_14") .+ ("m_1_12" .>> #28)) .+ "m_1_13") .+ (("m_1_14" .& #0x0fffffff) .<< #28)) .+ ("m_2_11" .>> #28)) .+ "m_2_12") .+ (("m_2_13" .& #0x0fffffff) .<< #28)) .+ ("m_3_10" .>> #28)) .+ "m_3_11") .+ (("m_3_12" .& #0x0fffffff) .<< #28)) .+ ("m_4_9" .>> #28)) .+ "m_4_10") .+ (("m_4_11" .& #0x0fffffff) .<< #28)) .+ ("m_5_8" .>> #28)) .+ "m_5_9") .+ (("m_5_10" .& #0x0fffffff) .<< #28)) .+ ("m_6_7" .>> #28)) .+ "m_6_8") .+ (("m_6_9" .& #0x0fffffff) .<< #28)) .+ ("m_7_6" .>> #28)) .+ "m_7_7") .+ (("m_7_8" .& #0x0fffffff) .<< #28)) .+ ("m_8_5" .>> #28)) .+ "m_8_6") .+ (("m_8_7" .& #0x0fffffff) .<< #28)) .+ ("m_9_4" .>> #28)) .+ "m_9_5") .+ (("m_9_6" .& #0x0fffffff) .<< #28)) .+ ("m_10_3" .>> #28)) .+ "m_10_4") .+ (("m_10_5" .& #0x0fffffff) .<< #28)) .+ ("m_11_2" .>> #28)) .+ "m_11_3") .+ (("m_11_4" .& #0x0fffffff) .<< #28)) .+ ("m_12_1" .>> #28)) .+ "m_12_2") .+ (("m_12_3" .& #0x0fffffff) .<< #28)) .+ ("m_13_0" .>> #28)) .+ "m_13_1") .+ (("m_13_2" .& #0x0fffffff) .<< #28)) .+ "m_14_0") .+ (("m_14_1" .& #0x0fffffff) .<< #28)) .+ "c6";
    (*843*) "c7" <- "d7" .>> #56;
    (*844*) "d8" <- ((((((((((((((((((((((((((((((((((((((("m_1_14" .>> #28) .+ ("m_2_13" .>> #28)) .+ "m_2_14") .+ ("m_3_12" .>> #28)) .+ "m_3_13") .+ (("m_3_14" .& #0x0fffffff) .<< #28)) .+ ("m_4_11" .>> #28)) .+ "m_4_12") .+ (("m_4_13" .& #0x0fffffff) .<< #28)) .+ ("m_5_10" .>> #28)) .+ "m_5_11") .+ (("m_5_12" .& #0x0fffffff) .<< #28)) .+ ("m_6_9" .>> #28)) .+ "m_6_10") .+ (("m_6_11" .& #0x0fffffff) .<< #28)) .+ ("m_7_8" .>> #28)) .+ "m_7_9") .+ (("m_7_10" .& #0x0fffffff) .<< #28)) .+ ("m_8_7" .>> #28)) .+ "m_8_8") .+ (("m_8_9" .& #0x0fffffff) .<< #28)) .+ ("m_9_6" .>> #28)) .+ "m_9_7") .+ (("m_9_8" .& #0x0fffffff) .<< #28)) .+ ("m_10_5" .>> #28)) .+ "m_10_6") .+ (("m_10_7" .& #0x0fffffff) .<< #28)) .+ ("m_11_4" .>> #28)) .+ "m_11_5") .+ (("m_11_6" .& #0x0fffffff) .<< #28)) .+ ("m_12_3" .>> #28)) .+ "m_12_4") .+ (("m_12_5" .& #0x0fffffff) .<< #28)) .+ ("m_13_2" .>> #28)) .+ "m_13_3") .+ (("m_13_4" .& #0x0fffffff) .<< #28)) .+ ("m_14_1" .>> #28)) .+ "m_14_2") .+ (("m_14_3" .& #0x0fffffff) .<< #28)) .+ "c7";
    (*858*) "c8" <- "d8" .>> #56;
    (*859*) "d9" <- ((((((((((((((((((((((((((((((((("m_3_14" .>> #28) .+ ("m_4_13" .>> #28)) .+ "m_4_14") .+ ("m_5_12" .>> #28)) .+ "m_5_13") .+ (("m_5_14" .& #0x0fffffff) .<< #28)) .+ ("m_6_11" .>> #28)) .+ "m_6_12") .+ (("m_6_13" .& #0x0fffffff) .<< #28)) .+ ("m_7_10" .>> #28)) .+ "m_7_11") .+ (("m_7_12" .& #0x0fffffff) .<< #28)) .+ ("m_8_9" .>> #28)) .+ "m_8_10") .+ (("m_8_11" .& #0x0fffffff) .<< #28)) .+ ("m_9_8" .>> #28)) .+ "m_9_9") .+ (("m_9_10" .& #0x0fffffff) .<< #28)) .+ ("m_10_7" .>> #28)) .+ "m_10_8") .+ (("m_10_9" .& #0x0fffffff) .<< #28)) .+ ("m_11_6" .>> #28)) .+ "m_11_7") .+ (("m_11_8" .& #0x0fffffff) .<< #28)) .+ ("m_12_5" .>> #28)) .+ "m_12_6") .+ (("m_12_7" .& #0x0fffffff) .<< #28)) .+ ("m_13_4" .>> #28)) .+ "m_13_5") .+ (("m_13_6" .& #0x0fffffff) .<< #28)) .+ ("m_14_3" .>> #28)) .+ "m_14_4") .+ (("m_14_5" .& #0x0fffffff) .<< #28)) .+ "c8";
    (*871*) "c9" <- "d9" .>> #56;
    (*872*) "d10" <- ((((((((((((((((((((((((((("m_5_14" .>> #28) .+ ("m_6_13" .>> #28)) .+ "m_6_14") .+ ("m_7_12" .>> #28)) .+ "m_7_13") .+ (("m_7_14" .& #0x0fffffff) .<< #28)) .+ ("m_8_11" .>> #28)) .+ "m_8_12") .+ (("m_8_13" .& #0x0fffffff) .<< #28)) .+ ("m_9_10" .>> #28)) .+ "m_9_11") .+ (("m_9_12" .& #0x0fffffff) .<< #28)) .+ ("m_10_9" .>> #28)) .+ "m_10_10") .+ (("m_10_11" .& #0x0fffffff) .<< #28)) .+ ("m_11_8" .>> #28)) .+ "m_11_9") .+ (("m_11_10" .& #0x0fffffff) .<< #28)) .+ ("m_12_7" .>> #28)) .+ "m_12_8") .+ (("m_12_9" .& #0x0fffffff) .<< #28)) .+ ("m_13_6" .>> #28)) .+ "m_13_7") .+ (("m_13_8" .& #0x0fffffff) .<< #28)) .+ ("m_14_5" .>> #28)) .+ "m_14_6") .+ (("m_14_7" .& #0x0fffffff) .<< #28)) .+ "c9";
    (*882*) "c10" <- "d10" .>> #56;
    (*883*) "d11" <- ((((((((((((((((((((("m_7_14" .>> #28) .+ ("m_8_13" .>> #28)) .+ "m_8_14") .+ ("m_9_12" .>> #28)) .+ "m_9_13") .+ (("m_9_14" .& #0x0fffffff) .<< #28)) .+ ("m_10_11" .>> #28)) .+ "m_10_12") .+ (("m_10_13" .& #0x0fffffff) .<< #28)) .+ ("m_11_10" .>> #28)) .+ "m_11_11") .+ (("m_11_12" .& #0x0fffffff) .<< #28)) .+ ("m_12_9" .>> #28)) .+ "m_12_10") .+ (("m_12_11" .& #0x0fffffff) .<< #28)) .+ ("m_13_8" .>> #28)) .+ "m_13_9") .+ (("m_13_10" .& #0x0fffffff) .<< #28)) .+ ("m_14_7" .>> #28)) .+ "m_14_8") .+ (("m_14_9" .& #0x0fffffff) .<< #28)) .+ "c10";
    (*891*) "c11" <- "d11" .>> #56;
    (*892*) "d12" <- ((((((((((((((("m_9_14" .>> #28) .+ ("m_10_13" .>> #28)) .+ "m_10_14") .+ ("m_11_12" .>> #28)) .+ "m_11_13") .+ (("m_11_14" .& #0x0fffffff) .<< #28)) .+ ("m_12_11" .>> #28)) .+ "m_12_12") .+ (("m_12_13" .& #0x0fffffff) .<< #28)) .+ ("m_13_10" .>> #28)) .+ "m_13_11") .+ (("m_13_12" .& #0x0fffffff) .<< #28)) .+ ("m_14_9" .>> #28)) .+ "m_14_10") .+ (("m_14_11" .& #0x0fffffff) .<< #28)) .+ "c11";
    (*899*) "c12" <- "d12" .>> #56;
    (*900*) "d13" <- ((((((((("m_11_14" .>> #28) .+ ("m_12_13" .>> #28)) .+ "m_12_14") .+ ("m_13_12" .>> #28)) .+ "m_13_13") .+ (("m_13_14" .& #0x0fffffff) .<< #28)) .+ ("m_14_11" .>> #28)) .+ "m_14_12") .+ (("m_14_13" .& #0x0fffffff) .<< #28)) .+ "c12";
    (*905*) "c13" <- "d13" .>> #56;
    (*906*) "d14" <- ((("m_13_14" .>> #28) .+ ("m_14_13" .>> #28)) .+ "m_14_14") .+ "c13";
    (*912*) "l0_0" <- "d0" .& #0x00ffffffffffffff;
    (*913*) "l1_0" <- "d1" .& #0x00ffffffffffffff;
    (*914*) "l2_0" <- "d2" .& #0x00ffffffffffffff;
    (*915*) "l3_0" <- "d3" .& #0x00ffffffffffffff;
    (*916*) "l4_0" <- "d4" .& #0x00ffffffffffffff;
    (*917*) "l5_0" <- "d5" .& #0x00ffffffffffffff;
    (*918*) "l6_0" <- "d6" .& #0x00ffffffffffffff;
    (*919*) "l7_0" <- "d7" .& #0x00000000003fffff;
    (*922*) "h0_0" <- (("d7" .& #0x00ffffffffffffff) .>> #22) .| (("d8" .& #0x00000000003fffff) .<< #34);
    (*924*) "h1_0" <- (("d8" .& #0x00ffffffffffffff) .>> #22) .| (("d9" .& #0x00000000003fffff) .<< #34);
    (*926*) "h2_0" <- (("d9" .& #0x00ffffffffffffff) .>> #22) .| (("d10" .& #0x00000000003fffff) .<< #34);
    (*928*) "h3_0" <- (("d10" .& #0x00ffffffffffffff) .>> #22) .| (("d11" .& #0x00000000003fffff) .<< #34);
    (*930*) "h4_0" <- (("d11" .& #0x00ffffffffffffff) .>> #22) .| (("d12" .& #0x00000000003fffff) .<< #34);
    (*932*) "h5_0" <- (("d12" .& #0x00ffffffffffffff) .>> #22) .| (("d13" .& #0x00000000003fffff) .<< #34);
    (*934*) "h6_0" <- (("d13" .& #0x00ffffffffffffff) .>> #22) .| (("d14" .& #0x00000000003fffff) .<< #34);
    (*936*) "h7_0" <- "d14" .>> #22;
    (*939*) "hc0_0" <- "h0_0" .* (EInt C_VAL);
    (*940*) "hc1_0" <- "h1_0" .* (EInt C_VAL);
    (*941*) "hc2_0" <- "h2_0" .* (EInt C_VAL);
    (*942*) "hc3_0" <- "h3_0" .* (EInt C_VAL);
    (*943*) "hc4_0" <- "h4_0" .* (EInt C_VAL);
    (*944*) "hc5_0" <- "h5_0" .* (EInt C_VAL);
    (*945*) "hc6_0" <- "h6_0" .* (EInt C_VAL);
    (*946*) "hc7_0" <- "h7_0" .* (EInt C_VAL);
    (*949*) "kin_0" <- "hc7_0" .>> #22;
    (*950*) "s0_0" <- ("l0_0" .+ "hc0_0") .+ ("kin_0" .* (EInt C_VAL));
    (*951*) "k0_0" <- "s0_0" .>> #56;
    (*952*) "s1_0" <- ("l1_0" .+ "hc1_0") .+ "k0_0";
    (*953*) "k1_0" <- "s1_0" .>> #56;
    (*954*) "s2_0" <- ("l2_0" .+ "hc2_0") .+ "k1_0";
    (*955*) "k2_0" <- "s2_0" .>> #56;
    (*956*) "s3_0" <- ("l3_0" .+ "hc3_0") .+ "k2_0";
    (*957*) "k3_0" <- "s3_0" .>> #56;
    (*958*) "s4_0" <- ("l4_0" .+ "hc4_0") .+ "k3_0";
    (*959*) "k4_0" <- "s4_0" .>> #56;
    (*960*) "s5_0" <- ("l5_0" .+ "hc5_0") .+ "k4_0";
    (*961*) "k5_0" <- "s5_0" .>> #56;
    (*962*) "s6_0" <- ("l6_0" .+ "hc6_0") .+ "k5_0";
    (*963*) "k6_0" <- "s6_0" .>> #56;
    (*964*) "s7_0" <- ("l7_0" .+ ("hc7_0" .& #0x00000000003fffff)) .+ "k6_0";
    (*966*) SSet "self" #0 ("s0_0" .& #0x00ffffffffffffff);
    (*967*) SSet "self" #1 ("s1_0" .& #0x00ffffffffffffff);
    (*968*) SSet "self" #2 ("s2_0" .& #0x00ffffffffffffff);
    (*969*) SSet "self" #3 ("s3_0" .& #0x00ffffffffffffff);
    (*970*) SSet "self" #4 ("s4_0" .& #0x00ffffffffffffff);
    (*971*) SSet "self" #5 ("s5_0" .& #0x00ffffffffffffff);
    (*972*) SSet "self" #6 ("s6_0" .& #0x00ffffffffffffff);
    (*973*) SSet "self" #7 ("s7_0") ]
    [].

(* src/field/mod_e414_17.rs:978-980  MulAssign<F>  F::mul_assign(F) *)
Definition f_mul_assign_val : func := mkfunc ["self"; "rhs"] [
    (*979*) SCall [] "F::mul_assign(&F)" [AMut "self"; AVal "rhs"] ]
    [].

(* src/field/mod_e414_17.rs:986-988  Mul<&F>  i32::mul(&F) *)
Definition f_i32_mul_ref : func := mkfunc ["self"; "a"] [
    (*987*) SCall ["%1"] "F::small_mul" [AVal "a"; AVal "self"] ]
    [EVar "%1"].

(* src/field/mod_e414_17.rs:994-996  Mul<&F>  i16::mul(&F) *)
Definition f_i16_mul_ref : func := mkfunc ["self"; "a"] [
    (*995*) SCall ["%1"] "F::small_mul" [AVal "a"; AVal (ECast I32 "self")] ]
    [EVar "%1"].

(* src/field/mod_e414_17.rs:1002-1004  Mul<&F>  i8::mul(&F) *)
Definition f_i8_mul_ref : func := mkfunc ["self"; "a"] [
    (*1003*) SCall ["%1"] "F::small_mul" [AVal "a"; AVal (ECast I32 "self")] ]
    [EVar "%1"].

(* src/field/mod_e414_17.rs:1010-1012  Mul<i32>  (&F)::mul(i32) *)
Definition f_ref_mul_i32 : func := mkfunc ["self"; "a"] [
    (*1011*) SCall ["%1"] "F::small_mul" [AVal "self"; AVal "a"] ]
    [EVar "%1"].

(* src/field/mod_e414_17.rs:1018-1020  Mul<i16>  (&F)::mul(i16) *)
Definition f_ref_mul_i16 : func := mkfunc ["self"; "a"] [
    (*1019*) SCall ["%1"] "F::small_mul" [AVal "self"; AVal (ECast I32 "a")] ]
    [EVar "%1"].

(* src/field/mod_e414_17.rs:1026-1028  Mul<i8>  (&F)::mul(i8) *)
Definition f_ref_mul_i8 : func := mkfunc ["self"; "a"] [
    (*1027*) SCall ["%1"] "F::small_mul" [AVal "self"; AVal (ECast I32 "a")] ]
    [EVar "%1"].

(* src/field/mod_e414_17.rs:1034-1036  Mul<i32>  F::mul(i32) *)
Definition f_mul_i32 : func := mkfunc ["self"; "a"] [
    (*1035*) SCall ["%1"] "(&F)::mul(i32)" [AVal "self"; AVal "a"] ]
    [EVar "%1"].

(* src/field/mod_e414_17.rs:1042-1044  Mul<i16>  F::mul(i16) *)
Definition f_mul_i16 : func := mkfunc ["self"; "a"] [
    (*1043*) SCall ["%1"] "(&F)::mul(i16)" [AVal "self"; AVal "a"] ]
    [EVar "%1"].

(* src/field/mod_e414_17.rs:1050-1052  Mul<i8>  F::mul(i8) *)
Definition f_mul_i8 : func := mkfunc ["self"; "a"] [
    (*1051*) SCall ["%1"] "(&F)::mul(i8)" [AVal "self"; AVal "a"] ]
    [EVar "%1"].

(* src/field/mod_e414_17.rs:1058-1062  Mul<&F>  (&F)::mul(&F) *)
Definition f_ref_mul_ref : func := mkfunc ["self"; "a"] [
    (*1059*) "out" <- "self";
    (*1060*) SCall [] "F::mul_assign(&F)" [AMut "out"; AVal "a"] ]
    [EVar "out"].

(* src/field/mod_e414_17.rs:1068-1070  Mul<F>  F::mul(F) *)
Definition f_mul_val : func := mkfunc ["self"; "a"] [
    (*1069*) SCall ["%1"] "(&F)::mul(&F)" [AVal "self"; AVal "a"] ]
    [EVar "%1"].

(* src/field/mod_e414_17.rs:1074-1082  Rand  F::rand *)
Definition f_rand : func := mkfunc ["rng"] [
    (*1075*) "out" <- ERep #0 8;
    (*1077*) SFor "i" #0 #8 [
      (*1078*) SGenRange "%1" "rng" #0 ((ELit MODULUS).["i"]);
      (*1078*) SSet "out" "i" ("%1") ] ]
    [EVar "out"].

(* src/field/mod_e414_17.rs:1086-1139  Pack  F::unpack *)
Definition f_unpack : func := mkfunc ["self"; "bytes"] [
    (*1087*) SSet "self" #0 ((((((((ECast I64 ("bytes".[#0])) .& #0x00000000000000ff) .| (((ECast I64 ("bytes".[#1])) .<< #8) .& #0x000000000000ff00)) .| (((ECast I64 ("bytes".[#2])) .<< #16) .& #0x0000000000ff0000)) .| (((ECast I64 ("bytes".[#3])) .<< #24) .& #0x00000000ff000000)) .| (((ECast I64 ("bytes".[#4])) .<< #32) .& #0x000000ff00000000)) .| (((ECast I64 ("bytes".[#5])) .<< #40) .& #0x0000ff0000000000)) .| (((ECast I64 ("bytes".[#6])) .<< #48) .& #0x00ff000000000000));
    (*1094*) SSet "self" #1 ((((((((ECast I64 ("bytes".[#7])) .& #0x00000000000000ff) .| (((ECast I64 ("bytes".[#8])) .<< #8) .& #0x000000000000ff00)) .| (((ECast I64 ("bytes".[#9])) .<< #16) .& #0x0000000000ff0000)) .| (((ECast I64 ("bytes".[#10])) .<< #24) .& #0x00000000ff000000)) .| (((ECast I64 ("bytes".[#11])) .<< #32) .& #0x000000ff00000000)) .| (((ECast I64 ("bytes".[#12])) .<< #40) .& #0x0000ff0000000000)) .| (((ECast I64 ("bytes".[#13])) .<< #48) .& #0x00ff000000000000));
    (*1101*) SSet "self" #2 ((((((((ECast I64 ("bytes".[#14])) .& #0x00000000000000ff) .| (((ECast I64 ("bytes".[#15])) .<< #8) .& #0x000000000000ff00)) .| (((ECast I64 ("bytes".[#16])) .<< #16) .& #0x0000000000ff0000)) .| (((ECast I64 ("bytes".[#17])) .<< #24) .& #0x00000000ff000000)) .| (((ECast I64 ("bytes".[#18])) .<< #32) .& #0x000000ff00000000)) .| (((ECast I64 ("bytes".[#19])) .<< #40) .& #0x0000ff0000000000)) .| (((ECast I64 ("bytes".[#20])) .<< #48) .& #0x00ff000000000000));
    (*1108*) SSet "self" #3 ((((((((ECast I64 ("bytes".[#21])) .& #0x00000000000000ff) .| (((ECast I64 ("bytes".[#22])) .<< #8) .& #0x000000000000ff00)) .| (((ECast I64 ("bytes".[#23])) .<< #16) .& #0x0000000000ff0000)) .| (((ECast I64 ("bytes".[#24])) .<< #24) .& #0x00000000ff000000)) .| (((ECast I64 ("bytes".[#25])) .<< #32) .& #0x000000ff00000000)) .| (((ECast I64 ("bytes".[#26])) .<< #40) .& #0x0000ff0000000000)) .| (((ECast I64 ("bytes".[#27])) .<< #48) .& #0x00ff000000000000));
    (*1115*) SSet "self" #4 ((((((((ECast I64 ("bytes".[#28])) .& #0x00000000000000ff) .| (((ECast I64 ("bytes".[#29])) .<< #8) .& #0x000000000000ff00)) .| (((ECast I64 ("bytes".[#30])) .<< #16) .& #0x0000000000ff0000)) .| (((ECast I64 ("bytes".[#31])) .<< #24) .& #0x00000000ff000000)) .| (((ECast I64 ("bytes".[#32])) .<< #32) .& #0x000000ff00000000)) .| (((ECast I64 ("bytes".[#33])) .<< #40) .& #0x0000ff0000000000)) .| (((ECast I64 ("bytes".[#34])) .<< #48) .& #0x00ff000000000000));
    (*1122*) SSet "self" #5 ((((((((ECast I64 ("bytes".[#35])) .& #0x00000000000000ff) .| (((ECast I64 ("bytes".[#36])) .<< #8) .& #0x000000000000ff00)) .| (((ECast I64 ("bytes".[#37])) .<< #16) .& #0x0000000000ff0000)) .| (((ECast I64 ("bytes".[#38])) .<< #24) .& #0x00000000ff000000)) .| (((ECast I64 ("bytes".[#39])) .<< #32) .& #0x000000ff00000000)) .| (((ECast I64 ("bytes".[#40])) .<< #40) .& #0x0000ff0000000000)) .| (((ECast I64 ("bytes".[#41])) .<< #48) .& #0x00ff000000000000));
    (*1129*) SSet "self" #6 ((((((((ECast I64 ("bytes".[#42])) .& #0x00000000000000ff) .| (((ECast I64 ("bytes".[#43])) .<< #8) .& #0x000000000000ff00)) .| (((ECast I64 ("bytes".[#44])) .<< #16) .& #0x0000000000ff0000)) .| (((ECast I64 ("bytes".[#45])) .<< #24) .& #0x00000000ff000000)) .| (((ECast I64 ("bytes".[#46])) .<< #32) .& #0x000000ff00000000)) .| (((ECast I64 ("bytes".[#47])) .<< #40) .& #0x0000ff0000000000)) .| (((ECast I64 ("bytes".[#48])) .<< #48) .& #0x00ff000000000000));
    (*1136*) SSet "self" #7 ((((ECast I64 ("bytes".[#49])) .& #0x00000000000000ff) .| (((ECast I64 ("bytes".[#50])) .<< #8) .& #0x000000000000ff00)) .| (((ECast I64 ("bytes".[#51])) .<< #16) .& #0x00000000003f0000)) ]
    [].

(* src/field/mod_e414_17.rs:1141-1145  Pack  F::unpacked *)
Definition f_unpacked : func := mkfunc ["bytes"] [
    (*1142*) "out" <- ELit ZERO;
    (*1143*) SCall [] "F::unpack" [AMut "out"; AVal "bytes"] ]
    [EVar "out"].

(* src/field/mod_e414_17.rs:1147-1150  Pack  F::pack *)
Definition f_pack : func := mkfunc ["self"; "bytes"] [
    (*1148*) SCall [] "F::normalize" [AMut "self"];
    (*1149*) SCall [] "F::pack_normalized" [AVal "self"; AMut "bytes"] ]
    [].

(* src/field/mod_e414_17.rs:1152-1205  Pack  F::pack_normalized *)
Definition f_pack_normalized : func := mkfunc ["self"; "bytes"] [
    (*1153*) SSet "bytes" #0 (ECast U8 (("self".[#0]) .& #255));
    (*1154*) SSet "bytes" #1 (ECast U8 ((("self".[#0]) .>> #8) .& #255));
    (*1155*) SSet "bytes" #2 (ECast U8 ((("self".[#0]) .>> #16) .& #255));
    (*1156*) SSet "bytes" #3 (ECast U8 ((("self".[#0]) .>> #24) .& #255));
    (*1157*) SSet "bytes" #4 (ECast U8 ((("self".[#0]) .>> #32) .& #255));
    (*1158*) SSet "bytes" #5 (ECast U8 ((("self".[#0]) .>> #40) .& #255));
    (*1159*) SSet "bytes" #6 (ECast U8 ((("self".[#0]) .>> #48) .& #255));
    (*1160*) SSet "bytes" #7 (ECast U8 (("self".[#1]) .& #255));
    (*1161*) SSet "bytes" #8 (ECast U8 ((("self".[#1]) .>> #8) .& #255));
    (*1162*) SSet "bytes" #9 (ECast U8 ((("self".[#1]) .>> #16) .& #255));
    (*1163*) SSet "bytes" #10 (ECast U8 ((("self".[#1]) .>> #24) .& #255));
    (*1164*) SSet "bytes" #11 (ECast U8 ((("self".[#1]) .>> #32) .& #255));
    (*1165*) SSet "bytes" #12 (ECast U8 ((("self".[#1]) .>> #40) .& #255));
    (*1166*) SSet "bytes" #13 (ECast U8 ((("self".[#1]) .>> #48) .& #255));
    (*1167*) SSet "bytes" #14 (ECast U8 (("self".[#2]) .& #255));
    (*1168*) SSet "bytes" #15 (ECast U8 ((("self".[#2]) .>> #8) .& #255));
    (*1169*) SSet "bytes" #16 (ECast U8 ((("self".[#2]) .>> #16) .& #255));
    (*1170*) SSet "bytes" #17 (ECast U8 ((("self".[#2]) .>> #24) .& #255));
    (*1171*) SSet "bytes" #18 (ECast U8 ((("self".[#2]) .>> #32) .& #255));
    (*1172*) SSet "bytes" #19 (ECast U8 ((("self".[#2]) .>> #40) .& #255));
    (*1173*) SSet "bytes" #20 (ECast U8 ((("self".[#2]) .>> #48) .& #255));
    (*1174*) SSet "bytes" #21 (ECast U8 (("self".[#3]) .& #255));
    (*1175*) SSet "bytes" #22 (ECast U8 ((("self".[#3]) .>> #8) .& #255));
    (*1176*) SSet "bytes" #23 (ECast U8 ((("self".[#3]) .>> #16) .& #255));
    (*1177*) SSet "bytes" #24 (ECast U8 ((("self".[#3]) .>> #24) .& #255));
    (*1178*) SSet "bytes" #25 (ECast U8 ((("self".[#3]) .>> #32) .& #255));
    (*1179*) SSet "bytes" #26 (ECast U8 ((("self".[#3]) .>> #40) .& #255));
    (*1180*) SSet "bytes" #27 (ECast U8 ((("self".[#3]) .>> #48) .& #255));
    (*1181*) SSet "bytes" #28 (ECast U8 (("self".[#4]) .& #255));
    (*1182*) SSet "bytes" #29 (ECast U8 ((("self".[#4]) .>> #8) .& #255));
    (*1183*) SSet "bytes" #30 (ECast U8 ((("self".[#4]) .>> #16) .& #255));
    (*1184*) SSet "bytes" #31 (ECast U8 ((("self".[#4]) .>> #24) .& #255));
    (*1185*) SSet "bytes" #32 (ECast U8 ((("self".[#4]) .>> #32) .& #255));
    (*1186*) SSet "bytes" #33 (ECast U8 ((("self".[#4]) .>> #40) .& #255));
    (*1187*) SSet "bytes" #34 (ECast U8 ((("self".[#4]) .>> #48) .& #255));
    (*1188*) SSet "bytes" #35 (ECast U8 (("self".[#5]) .& #255));
    (*1189*) SSet "bytes" #36 (ECast U8 ((("self".[#5]) .>> #8) .& #255));
    (*1190*) SSet "bytes" #37 (ECast U8 ((("self".[#5]) .>> #16) .& #255));
    (*1191*) SSet "bytes" #38 (ECast U8 ((("self".[#5]) .>> #24) .& #255));
    (*1192*) SSet "bytes" #39 (ECast U8 ((("self".[#5]) .>> #32) .& #255));
    (*1193*) SSet "bytes" #40 (ECast U8 ((("self".[#5]) .>> #40) .& #255));
    (*1194*) SSet "bytes" #41 (ECast U8 ((("self".[#5]) .>> #48) .& #255));
    (*1195*) SSet "bytes" #42 (ECast U8 (("self".[#6]) .& #255));
    (*1196*) SSet "bytes" #43 (ECast U8 ((("self".[#6]) .>> #8) .& #255));
    (*1197*) SSet "bytes" #44 (ECast U8 ((("self".[#6]) .>> #16) .& #255));
    (*1198*) SSet "bytes" #45 (ECast U8 ((("self".[#6]) .>> #24) .& #255));
    (*1199*) SSet "bytes" #46 (ECast U8 ((("self".[#6]) .>> #32) .& #255));
    (*1200*) SSet "bytes" #47 (ECast U8 ((("self".[#6]) .>> #40) .& #255));
    (*1201*) SSet "bytes" #48 (ECast U8 ((("self".[#6]) .>> #48) .& #255));
    (*1202*) SSet "bytes" #49 (ECast U8 (("self".[#7]) .& #255));
    (*1203*) SSet "bytes" #50 (ECast U8 ((("self".[#7]) .>> #8) .& #255));
    (*1204*) SSet "bytes" #51 (ECast U8 ((("self".[#7]) .>> #16) .& #63)) ]
    [].

(* src/field/mod_e414_17.rs:1207-1209  Pack  F::nbytes *)
Definition f_nbytes : func := mkfunc [] [
 ]
    [#52].

(* src/field/mod_e414_17.rs:1213-1217  Normalize  F::normalize *)
Definition f_normalize : func := mkfunc ["self"] [
    (*1214*) SCall ["plusc"] "(&F)::add(i32)" [AVal "self"; AVal (ECast I32 (EInt C_VAL))];
    (*1215*) SCall ["offset"] "(&F)::mul(i32)" [AVal (ELit MODULUS); AVal (ECast I32 (carry_out "plusc"))];
    (*1216*) SCall [] "F::sub_assign(&F)" [AMut "self"; AVal "offset"] ]
    [].

(* src/field/mod_e414_17.rs:1221-1236  NormalizeEq  F::normalize_self_eq *)
Definition f_normalize_self_eq : func := mkfunc ["self"; "other"] [
    (*1222*) "are_equal" <- #1;
    (*1224*) SCall [] "F::normalize" [AMut "self"];
    (*1226*) "are_equal" <- "are_equal" .& (EEq ("self".[#0]) ("other".[#0]));
    (*1227*) "are_equal" <- "are_equal" .& (EEq ("self".[#1]) ("other".[#1]));
    (*1228*) "are_equal" <- "are_equal" .& (EEq ("self".[#2]) ("other".[#2]));
    (*1229*) "are_equal" <- "are_equal" .& (EEq ("self".[#3]) ("other".[#3]));
    (*1230*) "are_equal" <- "are_equal" .& (EEq ("self".[#4]) ("other".[#4]));
    (*1231*) "are_equal" <- "are_equal" .& (EEq ("self".[#5]) ("other".[#5]));
    (*1232*) "are_equal" <- "are_equal" .& (EEq ("self".[#6]) ("other".[#6]));
    (*1233*) "are_equal" <- "are_equal" .& (EEq ("self".[#7]) ("other".[#7])) ]
    [EVar "are_equal"].

(* src/field/mod_e414_17.rs:1238-1241  NormalizeEq  F::normalize_eq *)
Definition f_normalize_eq : func := mkfunc ["self"; "other"] [
    (*1239*) SCall [] "F::normalize" [AMut "other"];
    (*1240*) SCall ["%1"] "F::normalize_self_eq" [AMut "self"; AVal "other"] ]
    [EVar "%1"].

(* src/field/mod_e414_17.rs:1245-1263  PrimeFieldMask  Mask::fill *)
Definition f_Mask_fill : func := mkfunc ["self"; "bit"] [
    (*1246*) "mask" <- ECast I64 "bit";
    (*1248*) "mask" <- "mask" .| ("mask" .<< #1);
    (*1249*) "mask" <- "mask" .| ("mask" .<< #2);
    (*1250*) "mask" <- "mask" .| ("mask" .<< #4);
    (*1251*) "mask" <- "mask" .| ("mask" .<< #8);
    (*1252*) "mask" <- "mask" .| ("mask" .<< #16);
    (*1253*) "mask" <- "mask" .| ("mask" .<< #32);
    (*1255*) SSet "self" #0 ("mask");
    (*1256*) SSet "self" #1 ("mask");
    (*1257*) SSet "self" #2 ("mask");
    (*1258*) SSet "self" #3 ("mask");
    (*1259*) SSet "self" #4 ("mask");
    (*1260*) SSet "self" #5 ("mask");
    (*1261*) SSet "self" #6 ("mask");
    (*1262*) SSet "self" #7 ("mask") ]
    [].

(* src/field/mod_e414_17.rs:1265-1276  PrimeFieldMask  Mask::filled *)
Definition f_Mask_filled : func := mkfunc ["bit"] [
    (*1266*) "mask" <- ECast I64 "bit";
    (*1268*) "mask" <- "mask" .| ("mask" .<< #1);
    (*1269*) "mask" <- "mask" .| ("mask" .<< #2);
    (*1270*) "mask" <- "mask" .| ("mask" .<< #4);
    (*1271*) "mask" <- "mask" .| ("mask" .<< #8);
    (*1272*) "mask" <- "mask" .| ("mask" .<< #16);
    (*1273*) "mask" <- "mask" .| ("mask" .<< #32) ]
    [ERep "mask" 8].

(* src/field/mod_e414_17.rs:1280-1298  PrimeField  F::fill *)
Definition f_fill : func := mkfunc ["self"; "bit"] [
    (*1281*) "mask" <- ECast I64 "bit";
    (*1283*) "mask" <- "mask" .| ("mask" .<< #1);
    (*1284*) "mask" <- "mask" .| ("mask" .<< #2);
    (*1285*) "mask" <- "mask" .| ("mask" .<< #4);
    (*1286*) "mask" <- "mask" .| ("mask" .<< #8);
    (*1287*) "mask" <- "mask" .| ("mask" .<< #16);
    (*1288*) "mask" <- "mask" .| ("mask" .<< #32);
    (*1290*) SSet "self" #0 ("mask");
    (*1291*) SSet "self" #1 ("mask");
    (*1292*) SSet "self" #2 ("mask");
    (*1293*) SSet "self" #3 ("mask");
    (*1294*) SSet "self" #4 ("mask");
    (*1295*) SSet "self" #5 ("mask");
    (*1296*) SSet "self" #6 ("mask");
    (*1297*) SSet "self" #7 ("mask") ]
    [].

(* src/field/mod_e414_17.rs:1300-1311  PrimeField  F::filled *)
Definition f_filled : func := mkfunc ["bit"] [
    (*1301*) "mask" <- ECast I64 "bit";
    (*1303*) "mask" <- "mask" .| ("mask" .<< #1);
    (*1304*) "mask" <- "mask" .| ("mask" .<< #2);
    (*1305*) "mask" <- "mask" .| ("mask" .<< #4);
    (*1306*) "mask" <- "mask" .| ("mask" .<< #8);
    (*1307*) "mask" <- "mask" .| ("mask" .<< #16);
    (*1308*) "mask" <- "mask" .| ("mask" .<< #32) ]
    [ERep "mask" 8].

(* src/field/mod_e414_17.rs:1313-1313  PrimeField  F::nbits *)
Definition f_nbits : func := mkfunc [] [
 ]
    [#414].

(* src/field/mod_e414_17.rs:1315-1320  PrimeField  F::bit_normalized *)
Definition f_bit_normalized : func := mkfunc ["self"; "idx"] [
    (*1316*) "byte" <- EUDiv "idx" #56;
    (*1317*) "bit" <- EURem "idx" #56 ]
    [EEq ((("self".["byte"]) .>> "bit") .& #0x1) #0x1].

(* src/field/mod_e414_17.rs:1322-1325  PrimeField  F::bit *)
Definition f_bit : func := mkfunc ["self"; "idx"] [
    (*1323*) SCall [] "F::normalize" [AMut "self"];
    (*1324*) SCall ["%1"] "F::bit_normalized" [AVal "self"; AVal "idx"] ]
    [EVar "%1"].

(* src/field/mod_e414_17.rs:1327-1330  PrimeField  F::normalize_bitand *)
Definition f_normalize_bitand : func := mkfunc ["self"; "rhs"] [
    (*1328*) SCall [] "F::normalize" [AMut "rhs"];
    (*1329*) SCall [] "F::normalize_self_bitand" [AMut "self"; AVal "rhs"] ]
    [].

(* src/field/mod_e414_17.rs:1332-1335  PrimeField  F::normalize_self_bitand *)
Definition f_normalize_self_bitand : func := mkfunc ["self"; "rhs"] [
    (*1333*) SCall [] "F::normalize" [AMut "self"];
    (*1334*) SCall [] "F::normalized_bitand" [AMut "self"; AVal "rhs"] ]
    [].

(* src/field/mod_e414_17.rs:1337-1346  PrimeField  F::normalized_bitand *)
Definition f_normalized_bitand : func := mkfunc ["self"; "rhs"] [
    (*1338*) SSet "self" #0 (("self".[#0]) .& ("rhs".[#0]));
    (*1339*) SSet "self" #1 (("self".[#1]) .& ("rhs".[#1]));
    (*1340*) SSet "self" #2 (("self".[#2]) .& ("rhs".[#2]));
    (*1341*) SSet "self" #3 (("self".[#3]) .& ("rhs".[#3]));
    (*1342*) SSet "self" #4 (("self".[#4]) .& ("rhs".[#4]));
    (*1343*) SSet "self" #5 (("self".[#5]) .& ("rhs".[#5]));
    (*1344*) SSet "self" #6 (("self".[#6]) .& ("rhs".[#6]));
    (*1345*) SSet "self" #7 (("self".[#7]) .& ("rhs".[#7])) ]
    [].

(* src/field/mod_e414_17.rs:1348-1351  PrimeField  F::normalize_bitor *)
Definition f_normalize_bitor : func := mkfunc ["self"; "rhs"] [
    (*1349*) SCall [] "F::normalize" [AMut "rhs"];
    (*1350*) SCall [] "F::normalize_self_bitor" [AMut "self"; AVal "rhs"] ]
    [].

(* src/field/mod_e414_17.rs:1353-1356  PrimeField  F::normalize_self_bitor *)
Definition f_normalize_self_bitor : func := mkfunc ["self"; "rhs"] [
    (*1354*) SCall [] "F::normalize" [AMut "self"];
    (*1355*) SCall [] "F::normalized_bitor" [AMut "self"; AVal "rhs"] ]
    [].

(* src/field/mod_e414_17.rs:1358-1367  PrimeField  F::normalized_bitor *)
Definition f_normalized_bitor : func := mkfunc ["self"; "rhs"] [
    (*1359*) SSet "self" #0 (("self".[#0]) .| ("rhs".[#0]));
    (*1360*) SSet "self" #1 (("self".[#1]) .| ("rhs".[#1]));
    (*1361*) SSet "self" #2 (("self".[#2]) .| ("rhs".[#2]));
    (*1362*) SSet "self" #3 (("self".[#3]) .| ("rhs".[#3]));
    (*1363*) SSet "self" #4 (("self".[#4]) .| ("rhs".[#4]));
    (*1364*) SSet "self" #5 (("self".[#5]) .| ("rhs".[#5]));
    (*1365*) SSet "self" #6 (("self".[#6]) .| ("rhs".[#6]));
    (*1366*) SSet "self" #7 (("self".[#7]) .| ("rhs".[#7])) ]
    [].

(* src/field/mod_e414_17.rs:1369-1371  PrimeField  F::zero *)
Definition f_zero : func := mkfunc [] [
 ]
    [ELit ZERO].

(* src/field/mod_e414_17.rs:1373-1375  PrimeField  F::one *)
Definition f_one : func := mkfunc [] [
 ]
    [ELit ONE].

(* src/field/mod_e414_17.rs:1377-1379  PrimeField  F::m_one *)
Definition f_m_one : func := mkfunc [] [
 ]
    [ELit M_ONE].

(* src/field/mod_e414_17.rs:1381-1383  PrimeField  F::modulus *)
Definition f_modulus : func := mkfunc [] [
 ]
    [ELit MODULUS].

(* src/field/mod_e414_17.rs:1385-1839  PrimeField  F::square *)
Definition f_square : func := mkfunc ["self"] [
    (*1386*) "a0" <- ("self".[#0]) .& #0x0fffffff;
    (*1387*) "a1" <- ("self".[#0]) .>> #28;
    (*1388*) "a2" <- ("self".[#1]) .& #0x0fffffff;
    (*1389*) "a3" <- ("self".[#1]) .>> #28;
    (*1390*) "a4" <- ("self".[#2]) .& #0x0fffffff;
    (*1391*) "a5" <- ("self".[#2]) .>> #28;
    (*1392*) "a6" <- ("self".[#3]) .& #0x0fffffff;
    (*1393*) "a7" <- ("self".[#3]) .>> #28;
    (*1394*) "a8" <- ("self".[#4]) .& #0x0fffffff;
    (*1395*) "a9" <- ("self".[#4]) .>> #28;
    (*1396*) "a10" <- ("self".[#5]) .& #0x0fffffff;
    (*1397*) "a11" <- ("self".[#5]) .>> #28;
    (*1398*) "a12" <- ("self".[#6]) .& #0x0fffffff;
    (*1399*) "a13" <- ("self".[#6]) .>> #28;
    (*1400*) "a14" <- "self".[#7];
    (*1403*) "m_0_0" <- "a0" .* "a0";
    (*1404*) "m_0_1" <- "a0" .* "a1";
    (*1405*) "m_0_2" <- "a0" .* "a2";
    (*1406*) "m_0_3" <- "a0" .* "a3";
    (*1407*) "m_0_4" <- "a0" .* "a4";
    (*1408*) "m_0_5" <- "a0" .* "a5";
    (*1409*) "m_0_6" <- "a0" .* "a6";
    (*1410*) "m_0_7" <- "a0" .* "a7";
    (*1411*) "m_0_8" <- "a0" .* "a8";
    (*1412*) "m_0_9" <- "a0" .* "a9";
    (*1413*) "m_0_10" <- "a0" .* "a10";
    (*1414*) "m_0_11" <- "a0" .* "a11";
    (*1415*) "m_0_12" <- "a0" .* "a12";
    (*1416*) "m_0_13" <- "a0" .* "a13";
    (*1417*) "m_0_14" <- "a0" .* "a14";
    (*1418*) "m_1_0" <- "m_0_1";
    (*1419*) "m_1_1" <- "a1" .* "a1";
    (*1420*) "m_1_2" <- "a1" .* "a2";
    (*1421*) "m_1_3" <- "a1" .* "a3";
    (*1422*) "m_1_4" <- "a1" .* "a4";
    (*1423*) "m_1_5" <- "a1" .* "a5";
    (*1424*) "m_1_6" <- "a1" .* "a6";
    (*1425*) "m_1_7" <- "a1" .* "a7";
    (*1426*) "m_1_8" <- "a1" .* "a8";
    (*1427*) "m_1_9" <- "a1" .* "a9";
    (*1428*) "m_1_10" <- "a1" .* "a10";
    (*1429*) "m_1_11" <- "a1" .* "a11";
    (*1430*) "m_1_12" <- "a1" .* "a12";
    (*1431*) "m_1_13" <- "a1" .* "a13";
    (*1432*) "m_1_14" <- "a1" .* "a14";
    (*1433*) "m_2_0" <- "m_0_2";
    (*1434*) "m_2_1" <- "m_1_2";
    (*1435*) "m_2_2" <- "a2" .* "a2";
    (*1436*) "m_2_3" <- "a2" .* "a3";
    (*1437*) "m_2_4" <- "a2" .* "a4";
    (*1438*) "m_2_5" <- "a2" .* "a5";
    (*1439*) "m_2_6" <- "a2" .* "a6";
    (*1440*) "m_2_7" <- "a2" .* "a7";
    (*1441*) "m_2_8" <- "a2" .* "a8";
    (*1442*) "m_2_9" <- "a2" .* "a9";
    (*1443*) "m_2_10" <- "a2" .* "a10";
    (*1444*) "m_2_11" <- "a2" .* "a11";
    (*1445*) "m_2_12" <- "a2" .* "a12";
    (*1446*) "m_2_13" <- "a2" .* "a13";
    (*1447*) "m_2_14" <- "a2" .* "a14";
    (*1448*) "m_3_0" <- "m_0_3";
    (*1449*) "m_3_1" <- "m_1_3";
    (*1450*) "m_3_2" <- "m_2_3";
    (*1451*) "m_3_3" <- "a3" .* "a3";
    (*1452*) "m_3_4" <- "a3" .* "a4";
    (*1453*) "m_3_5" <- "a3" .* "a5";
    (*1454*) "m_3_6" <- "a3" .* "a6";
    (*1455*) "m_3_7" <- "a3" .* "a7";
    (*1456*) "m_3_8" <- "a3" .* "a8";
    (*1457*) "m_3_9" <- "a3" .* "a9";
    (*1458*) "m_3_10" <- "a3" .* "a10";
    (*1459*) "m_3_11" <- "a3" .* "a11";
    (*1460*) "m_3_12" <- "a3" .* "a12";
    (*1461*) "m_3_13" <- "a3" .* "a13";
    (*1462*) "m_3_14" <- "a3" .* "a14";
    (*1463*) "m_4_0" <- "m_0_4";
    (*1464*) "m_4_1" <- "m_1_4";
    (*1465*) "m_4_2" <- "m_2_4";
    (*1466*) "m_4_3" <- "m_3_4";
    (*1467*) "m_4_4" <- "a4" .* "a4";
    (*1468*) "m_4_5" <- "a4" .* "a5";
    (*1469*) "m_4_6" <- "a4" .* "a6";
    (*1470*) "m_4_7" <- "a4" .* "a7";
    (*1471*) "m_4_8" <- "a4" .* "a8";
    (*1472*) "m_4_9" <- "a4" .* "a9";
    (*1473*) "m_4_10" <- "a4" .* "a10";
    (*1474*) "m_4_11" <- "a4" .* "a11";
    (*1475*) "m_4_12" <- "a4" .* "a12";
    (*1476*) "m_4_13" <- "a4" .* "a13";
    (*1477*) "m_4_14" <- "a4" .* "a14";
    (*1478*) "m_5_0" <- "m_0_5";
    (*1479*) "m_5_1" <- "m_1_5";
    (*1480*) "m_5_2" <- "m_2_5";
    (*1481*) "m_5_3" <- "m_3_5";
    (*1482*) "m_5_4" <- "m_4_5";
    (*1483*) "m_5_5" <- "a5" .* "a5";
    (*1484*) "m_5_6" <- "a5" .* "a6";
    (*1485*) "m_5_7" <- "a5" .* "a7";
    (*1486*) "m_5_8" <- "a5" .* "a8";
    (*1487*) "m_5_9" <- "a5" .* "a9";
    (*1488*) "m_5_10" <- "a5" .* "a10";
    (*1489*) "m_5_11" <- "a5" .* "a11";
    (*1490*) "m_5_12" <- "a5" .* "a12";
    (*1491*) "m_5_13" <- "a5" .* "a13";
    (*1492*) "m_5_14" <- "a5" .* "a14";
    (*1493*) "m_6_0" <- "m_0_6";
    (*1494*) "m_6_1" <- "m_1_6";
    (*1495*) "m_6_2" <- "m_2_6";
    (*1496*) "m_6_3" <- "m_3_6";
    (*1497*) "m_6_4" <- "m_4_6";
    (*1498*) "m_6_5" <- "m_5_6";
    (*1499*) "m_6_6" <- "a6" .* "a6";
    (*1500*) "m_6_7" <- "a6" .* "a7";
    (*1501*) "m_6_8" <- "a6" .* "a8";
    (*1502*) "m_6_9" <- "a6" .* "a9";
    (*1503*) "m_6_10" <- "a6" .* "a10";
    (*1504*) "m_6_11" <- "a6" .* "a11";
    (*1505*) "m_6_12" <- "a6" .* "a12";
    (*1506*) "m_6_13" <- "a6" .* "a13";
    (*1507*) "m_6_14" <- "a6" .* "a14";
    (*1508*) "m_7_0" <- "m_0_7";
    (*1509*) "m_7_1" <- "m_1_7";
    (*1510*) "m_7_2" <- "m_2_7";
    (*1511*) "m_7_3" <- "m_3_7";
    (*1512*) "m_7_4" <- "m_4_7";
    (*1513*) "m_7_5" <- "m_5_7";
    (*1514*) "m_7_6" <- "m_6_7";
    (*1515*) "m_7_7" <- "a7" .* "a7";
    (*1516*) "m_7_8" <- "a7" .* "a8";
    (*1517*) "m_7_9" <- "a7" .* "a9";
    (*1518*) "m_7_10" <- "a7" .* "a10";
    (*1519*) "m_7_11" <- "a7" .* "a11";
    (*1520*) "m_7_12" <- "a7" .* "a12";
    (*1521*) "m_7_13" <- "a7" .* "a13";
    (*1522*) "m_7_14" <- "a7" .* "a14";
    (*1523*) "m_8_0" <- "m_0_8";
    (*1524*) "m_8_1" <- "m_1_8";
    (*1525*) "m_8_2" <- "m_2_8";
    (*1526*) "m_8_3" <- "m_3_8";
    (*1527*) "m_8_4" <- "m_4_8";
    (*1528*) "m_8_5" <- "m_5_8";
    (*1529*) "m_8_6" <- "m_6_8";
    (*1530*) "m_8_7" <- "m_7_8";
    (*1531*) "m_8_8" <- "a8" .* "a8";
    (*1532*) "m_8_9" <- "a8" .* "a9";
    (*1533*) "m_8_10" <- "a8" .* "a10";
    (*1534*) "m_8_11" <- "a8" .* "a11";
    (*1535*) "m_8_12" <- "a8" .* "a12";
    (*1536*) "m_8_13" <- "a8" .* "a13";
    (*1537*) "m_8_14" <- "a8" .* "a14";
    (*1538*) "m_9_0" <- "m_0_9";
    (*1539*) "m_9_1" <- "m_1_9";
    (*1540*) "m_9_2" <- "m_2_9";
    (*1541*) "m_9_3" <- "m_3_9";
    (*1542*) "m_9_4" <- "m_4_9";
    (*1543*) "m_9_5" <- "m_5_9";
    (*1544*) "m_9_6" <- "m_6_9";
    (*1545*) "m_9_7" <- "m_7_9";
    (*1546*) "m_9_8" <- "m_8_9";
    (*1547*) "m_9_9" <- "a9" .* "a9";
    (*1548*) "m_9_10" <- "a9" .* "a10";
    (*1549*) "m_9_11" <- "a9" .* "a11";
    (*1550*) "m_9_12" <- "a9" .* "a12";
    (*1551*) "m_9_13" <- "a9" .* "a13";
    (*1552*) "m_9_14" <- "a9" .* "a14";
    (*1553*) "m_10_0" <- "m_0_10";
    (*1554*) "m_10_1" <- "m_1_10";
    (*1555*) "m_10_2" <- "m_2_10";
    (*1556*) "m_10_3" <- "m_3_10";
    (*1557*) "m_10_4" <- "m_4_10";
    (*1558*) "m_10_5" <- "m_5_10";
    (*1559*) "m_10_6" <- "m_6_10";
    (*1560*) "m_10_7" <- "m_7_10";
    (*1561*) "m_10_8" <- "m_8_10";
    (*1562*) "m_10_9" <- "m_9_10";
    (*1563*) "m_10_10" <- "a10" .* "a10";
    (*1564*) "m_10_11" <- "a10" .* "a11";
    (*1565*) "m_10_12" <- "a10" .* "a12";
    (*1566*) "m_10_13" <- "a10" .* "a13";
    (*1567*) "m_10_14" <- "a10" .* "a14";
    (*1568*) "m_11_0" <- "m_0_11";
    (*1569*) "m_11_1" <- "m_1_11";
    (*1570*) "m_11_2" <- "m_2_11";
    (*1571*) "m_11_3" <- "m_3_11";
    (*1572*) "m_11_4" <- "m_4_11";
    (*1573*) "m_11_5" <- "m_5_11";
    (*1574*) "m_11_6" <- "m_6_11";
    (*1575*) "m_11_7" <- "m_7_11";
    (*1576*) "m_11_8" <- "m_8_11";
    (*1577*) "m_11_9" <- "m_9_11";
    (*1578*) "m_11_10" <- "m_10_11";
    (*1579*) "m_11_11" <- "a11" .* "a11";
    (*1580*) "m_11_12" <- "a11" .* "a12";
    (*1581*) "m_11_13" <- "a11" .* "a13";
    (*1582*) "m_11_14" <- "a11" .* "a14";
    (*1583*) "m_12_0" <- "m_0_12";
    (*1584*) "m_12_1" <- "m_1_12";
    (*1585*) "m_12_2" <- "m_2_12";
    (*1586*) "m_12_3" <- "m_3_12";
    (*1587*) "m_12_4" <- "m_4_12";
    (*1588*) "m_12_5" <- "m_5_12";
    (*1589*) "m_12_6" <- "m_6_12";
    (*1590*) "m_12_7" <- "m_7_12";
    (*1591*) "m_12_8" <- "m_8_12";
    (*1592*) "m_12_9" <- "m_9_12";
    (*1593*) "m_12_10" <- "m_10_12";
    (*1594*) "m_12_11" <- "m_11_12";
    (*1595*) "m_12_12" <- "a12" .* "a12";
    (*1596*) "m_12_13" <- "a12" .* "a13";
    (*1597*) "m_12_14" <- "a12" .* "a14";
    (*1598*) "m_13_0" <- "m_0_13";
    (*1599*) "m_13_1" <- "m_1_13";
    (*1600*) "m_13_2" <- "m_2_13";
    (*1601*) "m_13_3" <- "m_3_13";
    (*1602*) "m_13_4" <- "m_4_13";
    (*1603*) "m_13_5" <- "m_5_13";
    (*1604*) "m_13_6" <- "m_6_13";
    (*1605*) "m_13_7" <- "m_7_13";
    (*1606*) "m_13_8" <- "m_8_13";
    (*1607*) "m_13_9" <- "m_9_13";
    (*1608*) "m_13_10" <- "m_10_13";
    (*1609*) "m_13_11" <- "m_11_13";
    (*1610*) "m_13_12" <- "m_12_13";
    (*1611*) "m_13_13" <- "a13" .* "a13";
    (*1612*) "m_13_14" <- "a13" .* "a14";
    (*1613*) "m_14_0" <- "m_0_14";
    (*1614*) "m_14_1" <- "m_1_14";
    (*1615*) "m_14_2" <- "m_2_14";
    (*1616*) "m_14_3" <- "m_3_14";
    (*1617*) "m_14_4" <- "m_4_14";
    (*1618*) "m_14_5" <- "m_5_14";
    (*1619*) "m_14_6" <- "m_6_14";
    (*1620*) "m_14_7" <- "m_7_14";
    (*1621*) "m_14_8" <- "m_8_14";
    (*1622*) "m_14_9" <- "m_9_14";
    (*1623*) "m_14_10" <- "m_10_14";
    (*1624*) "m_14_11" <- "m_11_14";
    (*1625*) "m_14_12" <- "m_12_14";
    (*1626*) "m_14_13" <- "m_13_14";
    (*1627*) "m_14_14" <- "a14" .* "a14";
    (*1630*) "d0" <- ("m_0_0" .+ (("m_0_1" .& #0x0fffffff) .<< #28)) .+ (("m_1_0" .& #0x0fffffff) .<< #28);
    (*1632*) "c0" <- "d0" .>> #56;
    (*1633*) "d1" <- ((((((((("m_0_1" .>> #28) .+ "m_0_2") .+ (("m_0_3" .& #0x0fffffff) .<< #28)) .+ ("m_1_0" .>> #28)) .+ "m_1_1") .+ (("m_1_2" .& #0x0fffffff) .<< #28)) .+ "m_2_0") .+ (("m_2_1" .& #0x0fffffff) .<< #28)) .+ (("m_3_0" .& #0x0fffffff) .<< #28)) .+ "c0";
    (*1637*) "c1" <- "d1" .>> #56;
    (*1638*) "d2" <- ((((((((((((((("m_0_3" .>> #28) .+ "m_0_4") .+ (("m_0_5" .& #0x0fffffff) .<< #28)) .+ ("m_1_2" .>> #28)) .+ "m_1_3") .+ (("m_1_4" .& #0x0fffffff) .<< #28)) .+ ("m_2_1" .>> #28)) .+ "m_2_2") .+ (("m_2_3" .& #0x0fffffff) .<< #28)) .+ ("m_3_0" .>> #28)) .+ "m_3_1") .+ (("m_3_2" .& #0x0fffffff) .<< #28)) .+ "m_4_0") .+ (("m_4_1" .& #0x0fffffff) .<< #28)) .+ (("m_5_0" .& #0x0fffffff) .<< #28)) .+ "c1";
    (*1644*) "c2" <- "d2" .>> #56;
    (*1645*) "d3" <- ((((((((((((((((((((("m_0_5" .>> #28) .+ "m_0_6") .+ (("m_0_7" .& #0x0fffffff) .<< #28)) .+ ("m_1_4" .>> #28)) .+ "m_1_5") .+ (("m_1_6" .& #0x0fffffff) .<< #28)) .+ ("m_2_3" .>> #28)) .+ "m_2_4") .+ (("m_2_5" .& #0x0fffffff) .<< #28)) .+ ("m_3_2" .>> #28)) .+ "m_3_3") .+ (("m_3_4" .& #0x0fffffff) .<< #28)) .+ ("m_4_1" .>> #28)) .+ "m_4_2") .+ (("m_4_3" .& #0x0fffffff) .<< #28)) .+ ("m_5_0" .>> #28)) .+ "m_5_1") .+ (("m_5_2" .& #0x0fffffff) .<< #28)) .+ "m_6_0") .+ (("m_6_1" .& #0x0fffffff) .<< #28)) .+ (("m_7_0" .& #0x0fffffff) .<< #28)) .+ "c2";
    (*1653*) "c3" <- "d3" .>> #56;
    (*1654*) "d4" <- ((((((((((((((((((((((((((("m_0_7" .>> #28) .+ "m_0_8") .+ (("m_0_9" .& #0x0fffffff) .<< #28)) .+ ("m_1_6" .>> #28)) .+ "m_1_7") .+ (("m_1_8" .& #0x0fffffff) .<< #28)) .+ ("m_2_5" .>> #28)) .+ "m_2_6") .+ (("m_2_7" .& #0x0fffffff) .<< #28)) .+ ("m_3_4" .>> #28)) .+ "m_3_5") .+ (("m_3_6" .& #0x0fffffff) .<< #28)) .+ ("m_4_3" .>> #28)) .+ "m_4_4") .+ (("m_4_5" .& #0x0fffffff) .<< #28)) .+ ("m_5_2" .>> #28)) .+ "m_5_3") .+ (("m_5_4" .& #0x0fffffff) .<< #28)) .+ ("m_6_1" .>> #28)) .+ "m_6_2") .+ (("m_6_3" .& #0x0fffffff) .<< #28)) .+ ("m_7_0" .>> #28)) .+ "m_7_1") .+ (("m_7_2" .& #0x0fffffff) .<< #28)) .+ "m_8_0") .+ (("m_8_1" .& #0x0fffffff) .<< #28)) .+ (("m_9_0" .& #0x0fffffff) .<< #28)) .+ "c3";
    (*1664*) "c4" <- "d4" .>> #56;
    (*1665*) "d5" <- ((((((((((((((((((((((((((((((((("m_0_9" .>> #28) .+ "m_0_10") .+ (("m_0_11" .& #0x0fffffff) .<< #28)) .+ ("m_1_8" .>> #28)) .+ "m_1_9") .+ (("m_1_10" .& #0x0fffffff) .<< #28)) .+ ("m_2_7" .>> #28)) .+ "m_2_8") .+ (("m_2_9" .& #0x0fffffff) .<< #28)) .+ ("m_3_6" .>> #28)) .+ "m_3_7") .+ (("m_3_8" .& #0x0fffffff) .<< #28)) .+ ("m_4_5" .>> #28)) .+ "m_4_6") .+ (("m_4_7" .& #0x0fffffff) .<< #28)) .+ ("m_5_4" .>> #28)) .+ "m_5_5") .+ (("m_5_6" .& #0x0fffffff) .<< #28)) .+ ("m_6_3" .>> #28)) .+ "m_6_4") .+ (("m_6_5" .& #0x0fffffff) .<< #28)) .+ ("m_7_2" .>> #28)) .+ "m_7_3") .+ (("m_7_4" .& #0x0fffffff) .<< #28)) .+ ("m_8_1" .>> #28)) .+ "m_8_2") .+ (("m_8_3" .& #0x0fffffff) .<< #28)) .+ ("m_9_0" .>> #28)) .+ "m_9_1") .+ (("m_9_2" .& #0x0fffffff) .<< #28)) .+ "m_10_0") .+ (("m_10_1" .& #0x0fffffff) .<< #28)) .+ (("m_11_0" .& #0x0fffffff) .<< #28)) .+ "c4";
    (*1677*) "c5" <- "d5" .>> #56;
    (*1678*) "d6" <- ((((((((((((((((((((((((((((((((((((((("m_0_11" .>> #28) .+ "m_0_12") .+ (("m_0_13" .& #0x0fffffff) .<< #28)) .+ ("m_1_10" .>> #28)) .+ "m_1_11") .+ (("m_1_12" .& #0x0fffffff) .<< #28)) .+ ("m_2_9" .>> #28)) .+ "m_2_10") .+ (("m_2_11" .& #0x0fffffff) .<< #28)) .+ ("m_3_8" .>> #28)) .+ "m_3_9") .+ (("m_3_10" .& #0x0fffffff) .<< #28)) .+ ("m_4_7" .>> #28)) .+ "m_4_8") .+ (("m_4_9" .& #0x0fffffff) .<< #28)) .+ ("m_5_6" .>> #28)) .+ "m_5_7") .+ (("m_5_8" .& #0x0fffffff) .<< #28)) .+ ("m_6_5" .>> #28)) .+ "m_6_6") .+ (("m_6_7" .& #0x0fffffff) .<< #28)) .+ ("m_7_4" .>> #28)) .+ "m_7_5") .+ (("m_7_6" .& #0x0fffffff) .<< #28)) .+ ("m_8_3" .>> #28)) .+ "m_8_4") .+ (("m_8_5" .& #0x0fffffff) .<< #28)) .+ ("m_9_2" .>> #28)) .+ "m_9_3") .+ (("m_9_4" .& #0x0fffffff) .<< #28)) .+ ("m_10_1" .>> #28)) .+ "m_10_2") .+ (("m_10_3" .& #0x0fffffff) .<< #28)) .+ ("m_11_0" .>> #28)) .+ "m_11_1") .+ (("m_11_2" .& #0x0fffffff) .<< #28)) .+ "m_12_0") .+ (("m_12_1" .& #0x0fffffff) .<< #28)) .+ (("m_13_0" .& #0x0fffffff) .<< #28)) .+ "c5";
    (*1692*) "c6" <- "d6" .>> #56;
    (*1693*) "d7" <- ((((((((((((((((((((((((((((((((((((((((((("m_0_13" .>> #28) .+ "m_0_14") .+ ("m_1_12" .>> #28)) .+ "m_1_13") .+ (("m_1_14" .& #0x0fffffff) .<< #28)) .+ ("m_2_11" .>> #28)) .+ "m_2_12") .+ (("m_2_13" .& #0x0fffffff) .<< #28)) .+ ("m_3_10" .>> #28)) .+ "m_3_11") .+ (("m_3_12" .& #0x0fffffff) .<< #28)) .+ ("m_4_9" .>> #28)) .+ "m_4_10") .+ (("m_4_11" .& #0x0fffffff) .<< #28)) .+ ("m_5_8" .>> #28)) .+ "m_5_9") .+ (("m_5_10" .& #0x0fffffff) .<< #28)) .+ ("m_6_7" .>> #28)) .+ "m_6_8") .+ (("m_6_9" .& #0x0fffffff) .<< #28)) .+ ("m_7_6" .>> #28)) .+ "m_7_7") .+ (("m_7_8" .& #0x0fffffff) .<< #28)) .+ ("m_8_5" .>> #28)) .+ "m_8_6") .+ (("m_8_7" .& #0x0fffffff) .<< #28)) .+ ("m_9_4" .>> #28)) .+ "m_9_5") .+ (("m_9_6" .& #0x0fffffff) .<< #28)) .+ ("m_10_3" .>> #28)) .+ "m_10_4") .+ (("m_10_5" .& #0x0fffffff) .<< #28)) .+ ("m_11_2" .>> #28)) .+ "m_11_3") .+ (("m_11_4" .& #0x0fffffff) .<< #28)) .+ ("m_12_1" .>> #28)) .+ "m_12_2") .+ (("m_12_3" .& #0x0fffffff) .<< #28)) .+ ("m_13_0" .>> #28)) .+ "m_13_1") .+ (("m_13_2" .& #0x0fffffff) .<< #28)) .+ "m_14_0") .+ (("m_14_1" .& #0x0fffffff) .<< #28)) .+ "c6";
    (*1708*) "c7" <- "d7" .>> #56;
    (*1709*) "d8" <- ((((((((((((((((((((((((((((((((((((((("m_1_14" .>> #28) .+ ("m_2_13" .>> #28)) .+ "m_2_14") .+ ("m_3_12" .>> #28)) .+ "m_3_13") .+ (("m_3_14" .& #0x0fffffff) .<< #28)) .+ ("m_4_11" .>> #28)) .+ "m_4_12") .+ (("m_4_13" .& #0x0fffffff) .<< #28)) .+ ("m_5_10" .>> #28)) .+ "m_5_11") .+ (("m_5_12" .& #0x0fffffff) .<< #28)) .+ ("m_6_9" .>> #28)) .+ "m_6_10") .+ (("m_6_11" .& #0x0fffffff) .<< #28)) .+ ("m_7_8" .>> #28)) .+ "m_7_9") .+ (("m_7_10" .& #0x0fffffff) .<< #28)) .+ ("m_8_7" .>> #28)) .+ "m_8_8") .+ (("m_8_9" .& #0x0fffffff) .<< #28)) .+ ("m_9_6" .>> #28)) .+ "m_9_7") .+ (("m_9_8" .& #0x0fffffff) .<< #28)) .+ ("m_10_5" .>> #28)) .+ "m_10_6") .+ (("m_10_7" .& #0x0fffffff) .<< #28)) .+ ("m_11_4" .>> #28)) .+ "m_11_5") .+ (("m_11_6" .& #0x0fffffff) .<< #28)) .+ ("m_12_3" .>> #28)) .+ "m_12_4") .+ (("m_12_5" .& #0x0fffffff) .<< #28)) .+ ("m_13_2" .>> #28)) .+ "m_13_3") .+ (("m_13_4" .& #0x0fffffff) .<< #28)) .+ ("m_14_1" .>> #28)) .+ "m_14_2") .+ (("m_14_3" .& #0x0fffffff) .<< #28)) .+ "c7";
    (*1723*) "c8" <- "d8" .>> #56;
    (*1724*) "d9" <- ((((((((((((((((((((((((((((((((("m_3_14" .>> #28) .+ ("m_4_13" .>> #28)) .+ "m_4_14") .+ ("m_5_12" .>> #28)) .+ "m_5_13") .+ (("m_5_14" .& #0x0fffffff) .<< #28)) .+ ("m_6_11" .>> #28)) .+ "m_6_12") .+ (("m_6_13" .& #0x0fffffff) .<< #28)) .+ ("m_7_10" .>> #28)) .+ "m_7_11") .+ (("m_7_12" .& #0x0fffffff) .<< #28)) .+ ("m_8_9" .>> #28)) .+ "m_8_10") .+ (("m_8_11" .& #0x0fffffff) .<< #28)) .+ ("m_9_8" .>> #28)) .+ "m_9_9") .+ (("m_9_10" .& #0x0fffffff) .<< #28)) .+ ("m_10_7" .>> #28)) .+ "m_10_8") .+ (("m_10_9" .& #0x0fffffff) .<< #28)) .+ ("m_11_6" .>> #28)) .+ "m_11_7") .+ (("m_11_8" .& #0x0fffffff) .<< #28)) .+ ("m_12_5" .>> #28)) .+ "m_12_6") .+ (("m_12_7" .& #0x0fffffff) .<< #28)) .+ ("m_13_4" .>> #28)) .+ "m_13_5") .+ (("m_13_6" .& #0x0fffffff) .<< #28)) .+ ("m_14_3" .>> #28)) .+ "m_14_4") .+ (("m_14_5" .& #0x0fffffff) .<< #28)) .+ "c8";
    (*1736*) "c9" <- "d9" .>> #56;
    (*1737*) "d10" <- ((((((((((((((((((((((((((("m_5_14" .>> #28) .+ ("m_6_13" .>> #28)) .+ "m_6_14") .+ ("m_7_12" .>> #28)) .+ "m_7_13") .+ (("m_7_14" .& #0x0fffffff) .<< #28)) .+ ("m_8_11" .>> #28)) .+ "m_8_12") .+ (("m_8_13" .& #0x0fffffff) .<< #28)) .+ ("m_9_10" .>> #28)) .+ "m_9_11") .+ (("m_9_12" .& #0x0fffffff) .<< #28)) .+ ("m_10_9" .>> #28)) .+ "m_10_10") .+ (("m_10_11" .& #0x0fffffff) .<< #28)) .+ ("m_11_8" .>> #28)) .+ "m_11_9") .+ (("m_11_10" .& #0x0fffffff) .<< #28)) .+ ("m_12_7" .>> #28)) .+ "m_12_8") .+ (("m_12_9" .& #0x0fffffff) .<< #28)) .+ ("m_13_6" .>> #28)) .+ "m_13_7") .+ (("m_13_8" .& #0x0fffffff) .<< #28)) .+ ("m_14_5" .>> #28)) .+ "m_14_6") .+ (("m_14_7" .& #0x0fffffff) .<< #28)) .+ "c9";
    (*1747*) "c10" <- "d10" .>> #56;
    (*1748*) "d11" <- ((((((((((((((((((((("m_7_14" .>> #28) .+ ("m_8_13" .>> #28)) .+ "m_8_14") .+ ("m_9_12" .>> #28)) .+ "m_9_13") .+ (("m_9_14" .& #0x0fffffff) .<< #28)) .+ ("m_10_11" .>> #28)) .+ "m_10_12") .+ (("m_10_13" .& #0x0fffffff) .<< #28)) .+ ("m_11_10" .>> #28)) .+ "m_11_11") .+ (("m_11_12" .& #0x0fffffff) .<< #28)) .+ ("m_12_9" .>> #28)) .+ "m_12_10") .+ (("m_12_11" .& #0x0fffffff) .<< #28)) .+ ("m_13_8" .>> #28)) .+ "m_13_9") .+ (("m_13_10" .& #0x0fffffff) .<< #28)) .+ ("m_14_7" .>> #28)) .+ "m_14_8") .+ (("m_14_9" .& #0x0fffffff) .<< #28)) .+ "c10";
    (*1756*) "c11" <- "d11" .>> #56;
    (*1757*) "d12" <- ((((((((((((((("m_9_14" .>> #28) .+ ("m_10_13" .>> #28)) .+ "m_10_14") .+ ("m_11_12" .>> #28)) .+ "m_11_13") .+ (("m_11_14" .& #0x0fffffff) .<< #28)) .+ ("m_12_11" .>> #28)) .+ "m_12_12") .+ (("m_12_13" .& #0x0fffffff) .<< #28)) .+ ("m_13_10" .>> #28)) .+ "m_13_11") .+ (("m_13_12" .& #0x0fffffff) .<< #28)) .+ ("m_14_9" .>> #28)) .+ "m_14_10") .+ (("m_14_11" .& #0x0fffffff) .<< #28)) .+ "c11";
    (*1764*) "c12" <- "d12" .>> #56;
    (*1765*) "d13" <- ((((((((("m_11_14" .>> #28) .+ ("m_12_13" .>> #28)) .+ "m_12_14") .+ ("m_13_12" .>> #28)) .+ "m_13_13") .+ (("m_13_14" .& #0x0fffffff) .<< #28)) .+ ("m_14_11" .>> #28)) .+ "m_14_12") .+ (("m_14_13" .& #0x0fffffff) .<< #28)) .+ "c12";
    (*1770*) "c13" <- "d13" .>> #56;
    (*1771*) "d14" <- ((("m_13_14" .>> #28) .+ ("m_14_13" .>> #28)) .+ "m_14_14") .+ "c13";
    (*1777*) "l0_0" <- "d0" .& #0x00ffffffffffffff;
    (*1778*) "l1_0" <- "d1" .& #0x00ffffffffffffff;
    (*1779*) "l2_0" <- "d2" .& #0x00ffffffffffffff;
    (*1780*) "l3_0" <- "d3" .& #0x00ffffffffffffff;
    (*1781*) "l4_0" <- "d4" .& #0x00ffffffffffffff;
    (*1782*) "l5_0" <- "d5" .& #0x00ffffffffffffff;
    (*1783*) "l6_0" <- "d6" .& #0x00ffffffffffffff;
    (*1784*) "l7_0" <- "d7" .& #0x00000000003fffff;
    (*1787*) "h0_0" <- (("d7" .& #0x00ffffffffffffff) .>> #22) .| (("d8" .& #0x00000000003fffff) .<< #34);
    (*1789*) "h1_0" <- (("d8" .& #0x00ffffffffffffff) .>> #22) .| (("d9" .& #0x00000000003fffff) .<< #34);
    (*1791*) "h2_0" <- (("d9" .& #0x00ffffffffffffff) .>> #22) .| (("d10" .& #0x00000000003fffff) .<< #34);
    (*1793*) "h3_0" <- (("d10" .& #0x00ffffffffffffff) .>> #22) .| (("d11" .& #0x00000000003fffff) .<< #34);
    (*1795*) "h4_0" <- (("d11" .& #0x00ffffffffffffff) .>> #22) .| (("d12" .& #0x00000000003fffff) .<< #34);
    (*1797*) "h5_0" <- (("d12" .& #0x00ffffffffffffff) .>> #22) .| (("d13" .& #0x00000000003fffff) .<< #34);
    (*1799*) "h6_0" <- (("d13" .& #0x00ffffffffffffff) .>> #22) .| (("d14" .& #0x00000000003fffff) .<< #34);
    (*1801*) "h7_0" <- "d14" .>> #22;
    (*1804*) "hc0_0" <- "h0_0" .* (EInt C_VAL);
    (*1805*) "hc1_0" <- "h1_0" .* (EInt C_VAL);
    (*1806*) "hc2_0" <- "h2_0" .* (EInt C_VAL);
    (*1807*) "hc3_0" <- "h3_0" .* (EInt C_VAL);
    (*1808*) "hc4_0" <- "h4_0" .* (EInt C_VAL);
    (*1809*) "hc5_0" <- "h5_0" .* (EInt C_VAL);
    (*1810*) "hc6_0" <- "h6_0" .* (EInt C_VAL);
    (*1811*) "hc7_0" <- "h7_0" .* (EInt C_VAL);
    (*1814*) "kin_0" <- "hc7_0" .>> #22;
    (*1815*) "s0_0" <- ("l0_0" .+ "hc0_0") .+ ("kin_0" .* (EInt C_VAL));
    (*1816*) "k0_0" <- "s0_0" .>> #56;
    (*1817*) "s1_0" <- ("l1_0" .+ "hc1_0") .+ "k0_0";
    (*1818*) "k1_0" <- "s1_0" .>> #56;
    (*1819*) "s2_0" <- ("l2_0" .+ "hc2_0") .+ "k1_0";
    (*1820*) "k2_0" <- "s2_0" .>> #56;
    (*1821*) "s3_0" <- ("l3_0" .+ "hc3_0") .+ "k2_0";
    (*1822*) "k3_0" <- "s3_0" .>> #56;
    (*1823*) "s4_0" <- ("l4_0" .+ "hc4_0") .+ "k3_0";
    (*1824*) "k4_0" <- "s4_0" .>> #56;
    (*1825*) "s5_0" <- ("l5_0" .+ "hc5_0") .+ "k4_0";
    (*1826*) "k5_0" <- "s5_0" .>> #56;
    (*1827*) "s6_0" <- ("l6_0" .+ "hc6_0") .+ "k5_0";
    (*1828*) "k6_0" <- "s6_0" .>> #56;
    (*1829*) "s7_0" <- ("l7_0" .+ ("hc7_0" .& #0x00000000003fffff)) .+ "k6_0";
    (*1831*) SSet "self" #0 ("s0_0" .& #0x00ffffffffffffff);
    (*1832*) SSet "self" #1 ("s1_0" .& #0x00ffffffffffffff);
    (*1833*) SSet "self" #2 ("s2_0" .& #0x00ffffffffffffff);
    (*1834*) SSet "self" #3 ("s3_0" .& #0x00ffffffffffffff);
    (*1835*) SSet "self" #4 ("s4_0" .& #0x00ffffffffffffff);
    (*1836*) SSet "self" #5 ("s5_0" .& #0x00ffffffffffffff);
    (*1837*) SSet "self" #6 ("s6_0" .& #0x00ffffffffffffff);
    (*1838*) SSet "self" #7 ("s7_0") ]
    [].

(* src/field/mod_e414_17.rs:1841-1847  PrimeField  F::squared *)
Definition f_squared : func := mkfunc ["self"] [
    (*1842*) "out" <- "self";
    (*1844*) SCall [] "F::square" [AMut "out"] ]
    [EVar "out"].

(* src/field/mod_e414_17.rs:1849-1871  PrimeField  F::invert *)
Definition f_invert : func := mkfunc ["self"] [
    (*1851*) "sqval" <- "self";
    (*1854*) SCall [] "F::square" [AMut "sqval"];
    (*1857*) SCall [] "F::square" [AMut "sqval"];
    (*1858*) SCall [] "F::mul_assign(&F)" [AMut "self"; AVal "sqval"];
    (*1860*) SCall [] "F::square" [AMut "sqval"];
    (*1861*) SCall [] "F::mul_assign(&F)" [AMut "self"; AVal "sqval"];
    (*1864*) SCall [] "F::square" [AMut "sqval"];
    (*1867*) SFor "_" #5 #414 [
      (*1868*) SCall [] "F::square" [AMut "sqval"];
      (*1869*) SCall [] "F::mul_assign(&F)" [AMut "self"; AVal "sqval"] ] ]
    [].

(* src/field/mod_e414_17.rs:1873-1879  PrimeField  F::inverted *)
Definition f_inverted : func := mkfunc ["self"] [
    (*1874*) "out" <- "self";
    (*1876*) SCall [] "F::invert" [AMut "out"] ]
    [EVar "out"].

(* src/field/mod_e414_17.rs:1881-1902  PrimeField  F::legendre *)
Definition f_legendre : func := mkfunc ["self"] [
    (*1883*) "out" <- "self";
    (*1884*) "sqval" <- "out";
    (*1887*) SCall [] "F::square" [AMut "sqval"];
    (*1888*) SCall [] "F::mul_assign(&F)" [AMut "out"; AVal "sqval"];
    (*1889*) SCall [] "F::square" [AMut "sqval"];
    (*1890*) SCall [] "F::mul_assign(&F)" [AMut "out"; AVal "sqval"];
    (*1893*) SCall [] "F::square" [AMut "sqval"];
    (*1896*) SFor "_" #4 #413 [
      (*1897*) SCall [] "F::square" [AMut "sqval"];
      (*1898*) SCall [] "F::mul_assign(&F)" [AMut "out"; AVal "sqval"] ] ]
    [EVar "out"].

(* src/field/mod_e414_17.rs:1904-1918  PrimeField  F::sqrt *)
Definition f_sqrt : func := mkfunc ["self"] [
    (*1908*) SCall ["sqval"] "F::squared" [AVal "self"];
    (*1909*) "out" <- ELit ONE;
    (*1912*) SFor "_" #2 #412 [
      (*1913*) SCall [] "F::square" [AMut "sqval"];
      (*1914*) SCall [] "F::mul_assign(&F)" [AMut "out"; AVal "sqval"] ] ]
    [EVar "out"].

(* src/field/mod_e414_17.rs:1920-1957  PrimeField  F::small_add_assign *)
Definition f_small_add_assign : func := mkfunc ["self"; "rhs"] [
    (*1921*) "a0" <- "self".[#0];
    (*1922*) "a1" <- "self".[#1];
    (*1923*) "a2" <- "self".[#2];
    (*1924*) "a3" <- "self".[#3];
    (*1925*) "a4" <- "self".[#4];
    (*1926*) "a5" <- "self".[#5];
    (*1927*) "a6" <- "self".[#6];
    (*1928*) "a7" <- ("self".[#7]) .& #0x00000000003fffff;
    (*1930*) "b" <- ECast I64 "rhs";
    (*1932*) "cin" <- carry_out "self";
    (*1933*) "s0" <- ("a0" .+ "b") .+ ("cin" .* (EInt C_VAL));
    (*1934*) "c0" <- "s0" .>> #56;
    (*1935*) "s1" <- "a1" .+ "c0";
    (*1936*) "c1" <- "s1" .>> #56;
    (*1937*) "s2" <- "a2" .+ "c1";
    (*1938*) "c2" <- "s2" .>> #56;
    (*1939*) "s3" <- "a3" .+ "c2";
    (*1940*) "c3" <- "s3" .>> #56;
    (*1941*) "s4" <- "a4" .+ "c3";
    (*1942*) "c4" <- "s4" .>> #56;
    (*1943*) "s5" <- "a5" .+ "c4";
    (*1944*) "c5" <- "s5" .>> #56;
    (*1945*) "s6" <- "a6" .+ "c5";
    (*1946*) "c6" <- "s6" .>> #56;
    (*1947*) "s7" <- "a7" .+ "c6";
    (*1949*) SSet "self" #0 ("s0" .& #0x00ffffffffffffff);
    (*1950*) SSet "self" #1 ("s1" .& #0x00ffffffffffffff);
    (*1951*) SSet "self" #2 ("s2" .& #0x00ffffffffffffff);
    (*1952*) SSet "self" #3 ("s3" .& #0x00ffffffffffffff);
    (*1953*) SSet "self" #4 ("s4" .& #0x00ffffffffffffff);
    (*1954*) SSet "self" #5 ("s5" .& #0x00ffffffffffffff);
    (*1955*) SSet "self" #6 ("s6" .& #0x00ffffffffffffff);
    (*1956*) SSet "self" #7 ("s7") ]
    [].

(* src/field/mod_e414_17.rs:1959-1965  PrimeField  F::small_add *)
Definition f_small_add : func := mkfunc ["self"; "rhs"] [
    (*1960*) "out" <- "self";
    (*1962*) SCall [] "F::small_add_assign" [AMut "out"; AVal "rhs"] ]
    [EVar "out"].

(* src/field/mod_e414_17.rs:1967-2004  PrimeField  F::small_sub_assign *)
Definition f_small_sub_assign : func := mkfunc ["self"; "rhs"] [
    (*1968*) "a0" <- "self".[#0];
    (*1969*) "a1" <- "self".[#1];
    (*1970*) "a2" <- "self".[#2];
    (*1971*) "a3" <- "self".[#3];
    (*1972*) "a4" <- "self".[#4];
    (*1973*) "a5" <- "self".[#5];
    (*1974*) "a6" <- "self".[#6];
    (*1975*) "a7" <- ("self".[#7]) .& #0x00000000003fffff;
    (*1977*) "b" <- ECast I64 "rhs";
    (*1979*) "cin" <- carry_out "self";
    (*1980*) "s0" <- ("a0" .- "b") .+ ("cin" .* (EInt C_VAL));
    (*1981*) "c0" <- "s0" .>> #56;
    (*1982*) "s1" <- "a1" .+ "c0";
    (*1983*) "c1" <- "s1" .>> #56;
    (*1984*) "s2" <- "a2" .+ "c1";
    (*1985*) "c2" <- "s2" .>> #56;
    (*1986*) "s3" <- "a3" .+ "c2";
    (*1987*) "c3" <- "s3" .>> #56;
    (*1988*) "s4" <- "a4" .+ "c3";
    (*1989*) "c4" <- "s4" .>> #56;
    (*1990*) "s5" <- "a5" .+ "c4";
    (*1991*) "c5" <- "s5" .>> #56;
    (*1992*) "s6" <- "a6" .+ "c5";
    (*1993*) "c6" <- "s6" .>> #56;
    (*1994*) "s7" <- "a7" .+ "c6";
    (*1996*) SSet "self" #0 ("s0" .& #0x00ffffffffffffff);
    (*1997*) SSet "self" #1 ("s1" .& #0x00ffffffffffffff);
    (*1998*) SSet "self" #2 ("s2" .& #0x00ffffffffffffff);
    (*1999*) SSet "self" #3 ("s3" .& #0x00ffffffffffffff);
    (*2000*) SSet "self" #4 ("s4" .& #0x00ffffffffffffff);
    (*2001*) SSet "self" #5 ("s5" .& #0x00ffffffffffffff);
    (*2002*) SSet "self" #6 ("s6" .& #0x00ffffffffffffff);
    (*2003*) SSet "self" #7 ("s7") ]
    [].

(* src/field/mod_e414_17.rs:2006-2012  PrimeField  F::small_sub *)
Definition f_small_sub : func := mkfunc ["self"; "rhs"] [
    (*2007*) "out" <- "self";
    (*2009*) SCall [] "F::small_sub_assign" [AMut "out"; AVal "rhs"] ]
    [EVar "out"].

(* src/field/mod_e414_17.rs:2014-2074  PrimeField  F::small_mul_assign *)
Definition f_small_mul_assign : func := mkfunc ["self"; "rhs"] [
    (*2015*) "a0" <- ("self".[#0]) .& #0x0fffffff;
    (*2016*) "a1" <- ("self".[#0]) .>> #28;
    (*2017*) "a2" <- ("self".[#1]) .& #0x0fffffff;
    (*2018*) "a3" <- ("self".[#1]) .>> #28;
    (*2019*) "a4" <- ("self".[#2]) .& #0x0fffffff;
    (*2020*) "a5" <- ("self".[#2]) .>> #28;
    (*2021*) "a6" <- ("self".[#3]) .& #0x0fffffff;
    (*2022*) "a7" <- ("self".[#3]) .>> #28;
    (*2023*) "a8" <- ("self".[#4]) .& #0x0fffffff;
    (*2024*) "a9" <- ("self".[#4]) .>> #28;
    (*2025*) "a10" <- ("self".[#5]) .& #0x0fffffff;
    (*2026*) "a11" <- ("self".[#5]) .>> #28;
    (*2027*) "a12" <- ("self".[#6]) .& #0x0fffffff;
    (*2028*) "a13" <- ("self".[#6]) .>> #28;
    (*2029*) "a14" <- "self".[#7];
    (*2031*) "b" <- ECast I64 "rhs";
    (*2033*) "m0" <- "a0" .* "b";
    (*2034*) "m1" <- "a1" .* "b";
    (*2035*) "m2" <- "a2" .* "b";
    (*2036*) "m3" <- "a3" .* "b";
    (*2037*) "m4" <- "a4" .* "b";
    (*2038*) "m5" <- "a5" .* "b";
    (*2039*) "m6" <- "a6" .* "b";
    (*2040*) "m7" <- "a7" .* "b";
    (*2041*) "m8" <- "a8" .* "b";
    (*2042*) "m9" <- "a9" .* "b";
    (*2043*) "m10" <- "a10" .* "b";
    (*2044*) "m11" <- "a11" .* "b";
    (*2045*) "m12" <- "a12" .* "b";
    (*2046*) "m13" <- "a13" .* "b";
    (*2047*) "m14" <- "a14" .* "b";
    (*2049*) "cin" <- carry_out "self";
    (*2050*) "d0" <- ("m0" .+ (("m1" .& #0x0fffffff) .<< #28)) .+ ("cin" .* (EInt C_VAL));
    (*2051*) "c0" <- "d0" .>> #56;
    (*2052*) "d1" <- ((("m1" .>> #28) .+ "m2") .+ (("m3" .& #0x0fffffff) .<< #28)) .+ "c0";
    (*2053*) "c1" <- "d1" .>> #56;
    (*2054*) "d2" <- ((("m3" .>> #28) .+ "m4") .+ (("m5" .& #0x0fffffff) .<< #28)) .+ "c1";
    (*2055*) "c2" <- "d2" .>> #56;
    (*2056*) "d3" <- ((("m5" .>> #28) .+ "m6") .+ (("m7" .& #0x0fffffff) .<< #28)) .+ "c2";
    (*2057*) "c3" <- "d3" .>> #56;
    (*2058*) "d4" <- ((("m7" .>> #28) .+ "m8") .+ (("m9" .& #0x0fffffff) .<< #28)) .+ "c3";
    (*2059*) "c4" <- "d4" .>> #56;
    (*2060*) "d5" <- ((("m9" .>> #28) .+ "m10") .+ (("m11" .& #0x0fffffff) .<< #28)) .+ "c4";
    (*2061*) "c5" <- "d5" .>> #56;
    (*2062*) "d6" <- ((("m11" .>> #28) .+ "m12") .+ (("m13" .& #0x0fffffff) .<< #28)) .+ "c5";
    (*2063*) "c6" <- "d6" .>> #56;
    (*2064*) "d7" <- (("m13" .>> #28) .+ "m14") .+ "c6";
    (*2066*) SSet "self" #0 ("d0" .& #0x00ffffffffffffff);
    (*2067*) SSet "self" #1 ("d1" .& #0x00ffffffffffffff);
    (*2068*) SSet "self" #2 ("d2" .& #0x00ffffffffffffff);
    (*2069*) SSet "self" #3 ("d3" .& #0x00ffffffffffffff);
    (*2070*) SSet "self" #4 ("d4" .& #0x00ffffffffffffff);
    (*2071*) SSet "self" #5 ("d5" .& #0x00ffffffffffffff);
    (*2072*) SSet "self" #6 ("d6" .& #0x00ffffffffffffff);
    (*2073*) SSet "self" #7 ("d7") ]
    [].

(* src/field/mod_e414_17.rs:2076-2082  PrimeField  F::small_mul *)
Definition f_small_mul : func := mkfunc ["self"; "b"] [
    (*2077*) "out" <- "self";
    (*2079*) SCall [] "F::small_mul_assign" [AMut "out"; AVal "b"] ]
    [EVar "out"].

(* the function table of this file: every non-test function *)
Definition table : list (string * func) := [
  ("F::Debug::fmt", f_Debug_fmt);
  ("F::LowerHex::fmt", f_LowerHex_fmt);
  ("F::UpperHex::fmt", f_UpperHex_fmt);
  ("F::packed", f_packed);
  ("F::neg", f_neg);
  ("F::add_assign(&F)", f_add_assign_ref);
  ("F::add_assign(F)", f_add_assign_val);
  ("F::add_assign(i32)", f_add_assign_i32);
  ("F::add_assign(i16)", f_add_assign_i16);
  ("F::add_assign(i8)", f_add_assign_i8);
  ("(&F)::add(&F)", f_ref_add_ref);
  ("F::add(F)", f_add_val);
  ("i32::add(&F)", f_i32_add_ref);
  ("i16::add(&F)", f_i16_add_ref);
  ("i8::add(&F)", f_i8_add_ref);
  ("(&F)::add(i32)", f_ref_add_i32);
  ("(&F)::add(i16)", f_ref_add_i16);
  ("(&F)::add(i8)", f_ref_add_i8);
  ("F::add(i32)", f_add_i32);
  ("F::add(i16)", f_add_i16);
  ("F::add(i8)", f_add_i8);
  ("F::div_assign(&F)", f_div_assign_ref);
  ("F::div_assign(F)", f_div_assign_val);
  ("(&F)::div(&F)", f_ref_div_ref);
  ("F::div(F)", f_div_val);
  ("F::sub_assign(&F)", f_sub_assign_ref);
  ("F::sub_assign(F)", f_sub_assign_val);
  ("F::sub_assign(i32)", f_sub_assign_i32);
  ("F::sub_assign(i16)", f_sub_assign_i16);
  ("F::sub_assign(i8)", f_sub_assign_i8);
  ("F::sub(i32)", f_sub_i32);
  ("F::sub(i16)", f_sub_i16);
  ("F::sub(i8)", f_sub_i8);
  ("(&F)::sub(&F)", f_ref_sub_ref);
  ("F::sub(F)", f_sub_val);
  ("(&F)::sub(i32)", f_ref_sub_i32);
  ("(&F)::sub(i16)", f_ref_sub_i16);
  ("(&F)::sub(i8)", f_ref_sub_i8);
  ("F::mul_assign(i32)", f_mul_assign_i32);
  ("F::mul_assign(i16)", f_mul_assign_i16);
  ("F::mul_assign(i8)", f_mul_assign_i8);
  ("F::mul_assign(&F)", f_mul_assign_ref);
  ("F::mul_assign(F)", f_mul_assign_val);
  ("i32::mul(&F)", f_i32_mul_ref);
  ("i16::mul(&F)", f_i16_mul_ref);
  ("i8::mul(&F)", f_i8_mul_ref);
  ("(&F)::mul(i32)", f_ref_mul_i32);
  ("(&F)::mul(i16)", f_ref_mul_i16);
  ("(&F)::mul(i8)", f_ref_mul_i8);
  ("F::mul(i32)", f_mul_i32);
  ("F::mul(i16)", f_mul_i16);
  ("F::mul(i8)", f_mul_i8);
  ("(&F)::mul(&F)", f_ref_mul_ref);
  ("F::mul(F)", f_mul_val);
  ("F::rand", f_rand);
  ("F::unpack", f_unpack);
  ("F::unpacked", f_unpacked);
  ("F::pack", f_pack);
  ("F::pack_normalized", f_pack_normalized);
  ("F::nbytes", f_nbytes);
  ("F::normalize", f_normalize);
  ("F::normalize_self_eq", f_normalize_self_eq);
  ("F::normalize_eq", f_normalize_eq);
  ("Mask::fill", f_Mask_fill);
  ("Mask::filled", f_Mask_filled);
  ("F::fill", f_fill);
  ("F::filled", f_filled);
  ("F::nbits", f_nbits);
  ("F::bit_normalized", f_bit_normalized);
  ("F::bit", f_bit);
  ("F::normalize_bitand", f_normalize_bitand);
  ("F::normalize_self_bitand", f_normalize_self_bitand);
  ("F::normalized_bitand", f_normalized_bitand);
  ("F::normalize_bitor", f_normalize_bitor);
  ("F::normalize_self_bitor", f_normalize_self_bitor);
  ("F::normalized_bitor", f_normalized_bitor);
  ("F::zero", f_zero);
  ("F::one", f_one);
  ("F::m_one", f_m_one);
  ("F::modulus", f_modulus);
  ("F::square", f_square);
  ("F::squared", f_squared);
  ("F::invert", f_invert);
  ("F::inverted", f_inverted);
  ("F::legendre", f_legendre);
  ("F::sqrt", f_sqrt);
  ("F::small_add_assign", f_small_add_assign);
  ("F::small_add", f_small_add);
  ("F::small_sub_assign", f_small_sub_assign);
  ("F::small_sub", f_small_sub);
  ("F::small_mul_assign", f_small_mul_assign);
  ("F::small_mul", f_small_mul)].
