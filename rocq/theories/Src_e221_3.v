(* Generated by tools/rust2coq.py from src/field/mod_e221_3.rs -- do not edit.
   One definition per item; each statement is preceded by its source line. *)
From Coq Require Import ZArith List String.
From Verif Require Import Lang.
Import ListNotations LangNotations.
Local Open Scope Z_scope.
Local Open Scope string_scope.

(* src/field/mod_e221_3.rs:41 *)
Definition C_VAL : Z := 3.

(* src/field/mod_e221_3.rs:44-44 *)
Definition ZERO : list Z := [0; 0; 0; 0].

(* src/field/mod_e221_3.rs:47-47 *)
Definition ONE : list Z := [1; 0; 0; 0].

(* src/field/mod_e221_3.rs:50-52 *)
Definition M_ONE : list Z := [0x03fffffffffffffc; 0x03ffffffffffffff; 0x03ffffffffffffff; 0x00007fffffffffff].

(* src/field/mod_e221_3.rs:55-57 *)
Definition MODULUS : list Z := [0x03fffffffffffffd; 0x03ffffffffffffff; 0x03ffffffffffffff; 0x00007fffffffffff].

(* src/field/mod_e221_3.rs:60-62 *)
Definition M_HALF : list Z := [0x03fffffffffffffe; 0x03ffffffffffffff; 0x03ffffffffffffff; 0x00003fffffffffff].

(* src/field/mod_e221_3.rs:64-66 *)
Definition COEFF : list Z := [0x02b158a371015617; 0x0393918499ec8f01; 0x00dd6e73800ee6c4; 0x00002301b5e2218f].

(* src/field/mod_e221_3.rs:69-69 *)
Definition M221_BASE_X : list Z := [0x4; 0; 0; 0].

(* src/field/mod_e221_3.rs:73-75 *)
Definition M221_BASE_Y : list Z := [0x0307dc6c08c5056d; 0x01f08a39876ffc41; 0x01571d1cef14eca3; 0x00003deb374a924e].

(* src/field/mod_e221_3.rs:79-81 *)
Definition M221_ORDER : list Z := [0x02f77f005042605b; 0x00056823b5cc3a28; 0; 0x0000100000000000].

(* src/field/mod_e221_3.rs:125-127  inherent F::carry_out (one-line method, kept as a macro on its receiver) *)
Definition carry_out (self : expr) : expr := self.[#3] .>> #47.

(* src/field/mod_e221_3.rs:84-92  Debug  F::Debug::fmt *)
Definition f_Debug_fmt : func := mkfunc ["self"; "f"] [
    (*85*) SPushStr "f" "Mod_e221_3: [ ";
    (*85*) SPushHex "f" false false 64 ("self".[#0]);
    (*87*) SFor "i" #1 #4 [
      (*88*) SPushStr "f" ", ";
      (*88*) SPushHex "f" false false 64 ("self".["i"]) ];
    (*91*) SPushStr "f" " ]" ]
    [].

(* src/field/mod_e221_3.rs:96-105  LowerHex  F::LowerHex::fmt *)
Definition f_LowerHex_fmt : func := mkfunc ["self"; "f"] [
    (*97*) "cpy" <- "self";
    (*98*) SCall ["bytes"] "F::packed" [AMut "cpy"];
    (*100*) SFor "i" #0 #28 [
      (*101*) SPushHex "f" false true 8 ("bytes".[EUSub #27 "i"]) ] ]
    [].

(* src/field/mod_e221_3.rs:109-118  UpperHex  F::UpperHex::fmt *)
Definition f_UpperHex_fmt : func := mkfunc ["self"; "f"] [
    (*110*) "cpy" <- "self";
    (*111*) SCall ["bytes"] "F::packed" [AMut "cpy"];
    (*113*) SFor "i" #0 #28 [
      (*114*) SPushHex "f" true true 8 ("bytes".[EUSub #27 "i"]) ] ]
    [].

(* src/field/mod_e221_3.rs:131-135  inherent  F::packed *)
Definition f_packed : func := mkfunc ["self"] [
    (*132*) "out" <- ERep #0 28;
    (*133*) SCall [] "F::pack" [AMut "self"; AMut "out"] ]
    [EVar "out"].

(* src/field/mod_e221_3.rs:139-151  inherent  F::quartic_legendre *)
Definition f_quartic_legendre : func := mkfunc ["self"] [
    (*141*) "out" <- "self";
    (*142*) "sqval" <- "out";
    (*145*) SFor "_" #1 #219 [
      (*146*) SCall [] "F::square" [AMut "sqval"];
      (*147*) SCall [] "F::mul_assign(&F)" [AMut "out"; AVal "sqval"] ] ]
    [EVar "out"].

(* src/field/mod_e221_3.rs:157-162  Neg  F::neg *)
Definition f_neg : func := mkfunc ["self"] [
    (*158*) "out" <- "self";
    (*160*) SCall [] "F::add_assign(&F)" [AMut "out"; AVal (ELit MODULUS)] ]
    [EVar "out"].

(* src/field/mod_e221_3.rs:166-190  AddAssign<&F>  F::add_assign(&F) *)
Definition f_add_assign_ref : func := mkfunc ["self"; "rhs"] [
    (*167*) "a0" <- "self".[#0];
    (*168*) "a1" <- "self".[#1];
    (*169*) "a2" <- "self".[#2];
    (*170*) "a3" <- ("self".[#3]) .& #0x00007fffffffffff;
    (*172*) "b0" <- "rhs".[#0];
    (*173*) "b1" <- "rhs".[#1];
    (*174*) "b2" <- "rhs".[#2];
    (*175*) "b3" <- ("rhs".[#3]) .& #0x00007fffffffffff;
    (*177*) "cin" <- (carry_out "self") .+ (carry_out "rhs");
    (*178*) "s0" <- ("a0" .+ "b0") .+ ("cin" .* (EInt C_VAL));
    (*179*) "c0" <- "s0" .>> #58;
    (*180*) "s1" <- ("a1" .+ "b1") .+ "c0";
    (*181*) "c1" <- "s1" .>> #58;
    (*182*) "s2" <- ("a2" .+ "b2") .+ "c1";
    (*183*) "c2" <- "s2" .>> #58;
    (*184*) "s3" <- ("a3" .+ "b3") .+ "c2";
    (*186*) SSet "self" #0 ("s0" .& #0x03ffffffffffffff);
    (*187*) SSet "self" #1 ("s1" .& #0x03ffffffffffffff);
    (*188*) SSet "self" #2 ("s2" .& #0x03ffffffffffffff);
    (*189*) SSet "self" #3 ("s3") ]
    [].

(* src/field/mod_e221_3.rs:194-196  AddAssign<F>  F::add_assign(F) *)
Definition f_add_assign_val : func := mkfunc ["self"; "rhs"] [
    (*195*) SCall [] "F::add_assign(&F)" [AMut "self"; AVal "rhs"] ]
    [].

(* src/field/mod_e221_3.rs:200-202  AddAssign<i32>  F::add_assign(i32) *)
Definition f_add_assign_i32 : func := mkfunc ["self"; "rhs"] [
    (*201*) SCall [] "F::small_add_assign" [AMut "self"; AVal "rhs"] ]
    [].

(* src/field/mod_e221_3.rs:206-208  AddAssign<i16>  F::add_assign(i16) *)
Definition f_add_assign_i16 : func := mkfunc ["self"; "rhs"] [
    (*207*) SCall [] "F::small_add_assign" [AMut "self"; AVal (ECast I32 "rhs")] ]
    [].

(* src/field/mod_e221_3.rs:212-214  AddAssign<i8>  F::add_assign(i8) *)
Definition f_add_assign_i8 : func := mkfunc ["self"; "rhs"] [
    (*213*) SCall [] "F::small_add_assign" [AMut "self"; AVal (ECast I32 "rhs")] ]
    [].

(* src/field/mod_e221_3.rs:220-224  Add<&F>  (&F)::add(&F) *)
Definition f_ref_add_ref : func := mkfunc ["self"; "a"] [
    (*221*) "out" <- "self";
    (*222*) SCall [] "F::add_assign(&F)" [AMut "out"; AVal "a"] ]
    [EVar "out"].

(* src/field/mod_e221_3.rs:230-232  Add<F>  F::add(F) *)
Definition f_add_val : func := mkfunc ["self"; "a"] [
    (*231*) SCall ["%1"] "(&F)::add(&F)" [AVal "self"; AVal "a"] ]
    [EVar "%1"].

(* src/field/mod_e221_3.rs:238-240  Add<&F>  i32::add(&F) *)
Definition f_i32_add_ref : func := mkfunc ["self"; "a"] [
    (*239*) SCall ["%1"] "F::small_add" [AVal "a"; AVal "self"] ]
    [EVar "%1"].

(* src/field/mod_e221_3.rs:246-248  Add<&F>  i16::add(&F) *)
Definition f_i16_add_ref : func := mkfunc ["self"; "a"] [
    (*247*) SCall ["%1"] "F::small_add" [AVal "a"; AVal (ECast I32 "self")] ]
    [EVar "%1"].

(* src/field/mod_e221_3.rs:254-256  Add<&F>  i8::add(&F) *)
Definition f_i8_add_ref : func := mkfunc ["self"; "a"] [
    (*255*) SCall ["%1"] "F::small_add" [AVal "a"; AVal (ECast I32 "self")] ]
    [EVar "%1"].

(* src/field/mod_e221_3.rs:262-264  Add<i32>  (&F)::add(i32) *)
Definition f_ref_add_i32 : func := mkfunc ["self"; "a"] [
    (*263*) SCall ["%1"] "F::small_add" [AVal "self"; AVal "a"] ]
    [EVar "%1"].

(* src/field/mod_e221_3.rs:270-272  Add<i16>  (&F)::add(i16) *)
Definition f_ref_add_i16 : func := mkfunc ["self"; "a"] [
    (*271*) SCall ["%1"] "F::small_add" [AVal "self"; AVal (ECast I32 "a")] ]
    [EVar "%1"].

(* src/field/mod_e221_3.rs:278-280  Add<i8>  (&F)::add(i8) *)
Definition f_ref_add_i8 : func := mkfunc ["self"; "a"] [
    (*279*) SCall ["%1"] "F::small_add" [AVal "self"; AVal (ECast I32 "a")] ]
    [EVar "%1"].

(* src/field/mod_e221_3.rs:286-288  Add<i32>  F::add(i32) *)
Definition f_add_i32 : func := mkfunc ["self"; "a"] [
    (*287*) SCall ["%1"] "(&F)::add(i32)" [AVal "self"; AVal "a"] ]
    [EVar "%1"].

(* src/field/mod_e221_3.rs:294-296  Add<i16>  F::add(i16) *)
Definition f_add_i16 : func := mkfunc ["self"; "a"] [
    (*295*) SCall ["%1"] "(&F)::add(i16)" [AVal "self"; AVal "a"] ]
    [EVar "%1"].

(* src/field/mod_e221_3.rs:302-304  Add<i8>  F::add(i8) *)
Definition f_add_i8 : func := mkfunc ["self"; "a"] [
    (*303*) SCall ["%1"] "(&F)::add(i8)" [AVal "self"; AVal "a"] ]
    [EVar "%1"].

(* src/field/mod_e221_3.rs:308-310  DivAssign<&F>  F::div_assign(&F) *)
Definition f_div_assign_ref : func := mkfunc ["self"; "rhs"] [
    (*309*) SCall ["%1"] "F::inverted" [AVal "rhs"];
    (*309*) SCall [] "F::mul_assign(&F)" [AMut "self"; AVal "%1"] ]
    [].

(* src/field/mod_e221_3.rs:314-316  DivAssign<F>  F::div_assign(F) *)
Definition f_div_assign_val : func := mkfunc ["self"; "rhs"] [
    (*315*) SCall [] "F::div_assign(&F)" [AMut "self"; AVal "rhs"] ]
    [].

(* src/field/mod_e221_3.rs:322-326  Div<&F>  (&F)::div(&F) *)
Definition f_ref_div_ref : func := mkfunc ["self"; "a"] [
    (*323*) "out" <- "self";
    (*324*) SCall [] "F::div_assign(&F)" [AMut "out"; AVal "a"] ]
    [EVar "out"].

(* src/field/mod_e221_3.rs:332-334  Div<F>  F::div(F) *)
Definition f_div_val : func := mkfunc ["self"; "a"] [
    (*333*) SCall ["%1"] "(&F)::div(&F)" [AVal "self"; AVal "a"] ]
    [EVar "%1"].

(* src/field/mod_e221_3.rs:338-340  SubAssign<i32>  F::sub_assign(i32) *)
Definition f_sub_assign_i32 : func := mkfunc ["self"; "rhs"] [
    (*339*) SCall [] "F::small_sub_assign" [AMut "self"; AVal "rhs"] ]
    [].

(* src/field/mod_e221_3.rs:344-346  SubAssign<i16>  F::sub_assign(i16) *)
Definition f_sub_assign_i16 : func := mkfunc ["self"; "rhs"] [
    (*345*) SCall [] "F::small_sub_assign" [AMut "self"; AVal (ECast I32 "rhs")] ]
    [].

(* src/field/mod_e221_3.rs:350-352  SubAssign<i8>  F::sub_assign(i8) *)
Definition f_sub_assign_i8 : func := mkfunc ["self"; "rhs"] [
    (*351*) SCall [] "F::small_sub_assign" [AMut "self"; AVal (ECast I32 "rhs")] ]
    [].

(* src/field/mod_e221_3.rs:356-380  SubAssign<&F>  F::sub_assign(&F) *)
Definition f_sub_assign_ref : func := mkfunc ["self"; "rhs"] [
    (*357*) "a0" <- "self".[#0];
    (*358*) "a1" <- "self".[#1];
    (*359*) "a2" <- "self".[#2];
    (*360*) "a3" <- ("self".[#3]) .& #0x00007fffffffffff;
    (*362*) "b0" <- "rhs".[#0];
    (*363*) "b1" <- "rhs".[#1];
    (*364*) "b2" <- "rhs".[#2];
    (*365*) "b3" <- ("rhs".[#3]) .& #0x00007fffffffffff;
    (*367*) "cin" <- (carry_out "self") .+ (carry_out "rhs");
    (*368*) "s0" <- ("a0" .- "b0") .+ ("cin" .* (EInt C_VAL));
    (*369*) "c0" <- "s0" .>> #58;
    (*370*) "s1" <- ("a1" .- "b1") .+ "c0";
    (*371*) "c1" <- "s1" .>> #58;
    (*372*) "s2" <- ("a2" .- "b2") .+ "c1";
    (*373*) "c2" <- "s2" .>> #58;
    (*374*) "s3" <- ("a3" .- "b3") .+ "c2";
    (*376*) SSet "self" #0 ("s0" .& #0x03ffffffffffffff);
    (*377*) SSet "self" #1 ("s1" .& #0x03ffffffffffffff);
    (*378*) SSet "self" #2 ("s2" .& #0x03ffffffffffffff);
    (*379*) SSet "self" #3 ("s3") ]
    [].

(* src/field/mod_e221_3.rs:384-386  SubAssign<F>  F::sub_assign(F) *)
Definition f_sub_assign_val : func := mkfunc ["self"; "rhs"] [
    (*385*) SCall [] "F::sub_assign(&F)" [AMut "self"; AVal "rhs"] ]
    [].

(* src/field/mod_e221_3.rs:392-394  Sub<i32>  (&F)::sub(i32) *)
Definition f_ref_sub_i32 : func := mkfunc ["self"; "a"] [
    (*393*) SCall ["%1"] "F::small_sub" [AVal "self"; AVal "a"] ]
    [EVar "%1"].

(* src/field/mod_e221_3.rs:400-402  Sub<i16>  (&F)::sub(i16) *)
Definition f_ref_sub_i16 : func := mkfunc ["self"; "a"] [
    (*401*) SCall ["%1"] "F::small_sub" [AVal "self"; AVal (ECast I32 "a")] ]
    [EVar "%1"].

(* src/field/mod_e221_3.rs:408-410  Sub<i8>  (&F)::sub(i8) *)
Definition f_ref_sub_i8 : func := mkfunc ["self"; "a"] [
    (*409*) SCall ["%1"] "F::small_sub" [AVal "self"; AVal (ECast I32 "a")] ]
    [EVar "%1"].

(* src/field/mod_e221_3.rs:416-418  Sub<i32>  F::sub(i32) *)
Definition f_sub_i32 : func := mkfunc ["self"; "a"] [
    (*417*) SCall ["%1"] "(&F)::sub(i32)" [AVal "self"; AVal "a"] ]
    [EVar "%1"].

(* src/field/mod_e221_3.rs:424-426  Sub<i16>  F::sub(i16) *)
Definition f_sub_i16 : func := mkfunc ["self"; "a"] [
    (*425*) SCall ["%1"] "(&F)::sub(i16)" [AVal "self"; AVal "a"] ]
    [EVar "%1"].

(* src/field/mod_e221_3.rs:432-434  Sub<i8>  F::sub(i8) *)
Definition f_sub_i8 : func := mkfunc ["self"; "a"] [
    (*433*) SCall ["%1"] "(&F)::sub(i8)" [AVal "self"; AVal "a"] ]
    [EVar "%1"].

(* src/field/mod_e221_3.rs:440-444  Sub<&F>  (&F)::sub(&F) *)
Definition f_ref_sub_ref : func := mkfunc ["self"; "a"] [
    (*441*) "out" <- "self";
    (*442*) SCall [] "F::sub_assign(&F)" [AMut "out"; AVal "a"] ]
    [EVar "out"].

(* src/field/mod_e221_3.rs:450-452  Sub<F>  F::sub(F) *)
Definition f_sub_val : func := mkfunc ["self"; "a"] [
    (*451*) SCall ["%1"] "(&F)::sub(&F)" [AVal "self"; AVal "a"] ]
    [EVar "%1"].

(* src/field/mod_e221_3.rs:456-458  MulAssign<i32>  F::mul_assign(i32) *)
Definition f_mul_assign_i32 : func := mkfunc ["self"; "rhs"] [
    (*457*) SCall [] "F::small_mul_assign" [AMut "self"; AVal "rhs"] ]
    [].

(* src/field/mod_e221_3.rs:462-464  MulAssign<i16>  F::mul_assign(i16) *)
Definition f_mul_assign_i16 : func := mkfunc ["self"; "rhs"] [
    (*463*) SCall [] "F::small_mul_assign" [AMut "self"; AVal (ECast I32 "rhs")] ]
    [].

(* src/field/mod_e221_3.rs:468-470  MulAssign<i8>  F::mul_assign(i8) *)
Definition f_mul_assign_i8 : func := mkfunc ["self"; "rhs"] [
    (*469*) SCall [] "F::small_mul_assign" [AMut "self"; AVal (ECast I32 "rhs")] ]
    [].

(* src/field/mod_e221_3.rs:474-651  MulAssign<&F>  F::mul_assign(&F) *)
Definition f_mul_assign_ref : func := mkfunc ["self"; "rhs"] [
    (*476*) "a0" <- ("self".[#0]) .& #0x1fffffff;
    (*477*) "a1" <- ("self".[#0]) .>> #29;
    (*478*) "a2" <- ("self".[#1]) .& #0x1fffffff;
    (*479*) "a3" <- ("self".[#1]) .>> #29;
    (*480*) "a4" <- ("self".[#2]) .& #0x1fffffff;
    (*481*) "a5" <- ("self".[#2]) .>> #29;
    (*482*) "a6" <- ("self".[#3]) .& #0x1fffffff;
    (*483*) "a7" <- ("self".[#3]) .>> #29;
    (*485*) "b0" <- ("rhs".[#0]) .& #0x1fffffff;
    (*486*) "b1" <- ("rhs".[#0]) .>> #29;
    (*487*) "b2" <- ("rhs".[#1]) .& #0x1fffffff;
    (*488*) "b3" <- ("rhs".[#1]) .>> #29;
    (*489*) "b4" <- ("rhs".[#2]) .& #0x1fffffff;
    (*490*) "b5" <- ("rhs".[#2]) .>> #29;
    (*491*) "b6" <- ("rhs".[#3]) .& #0x1fffffff;
    (*492*) "b7" <- ("rhs".[#3]) .>> #29;
    (*495*) "m_0_0" <- "a0" .* "b0";
    (*496*) "m_0_1" <- "a0" .* "b1";
    (*497*) "m_0_2" <- "a0" .* "b2";
    (*498*) "m_0_3" <- "a0" .* "b3";
    (*499*) "m_0_4" <- "a0" .* "b4";
    (*500*) "m_0_5" <- "a0" .* "b5";
    (*501*) "m_0_6" <- "a0" .* "b6";
    (*502*) "m_0_7" <- "a0" .* "b7";
    (*503*) "m_1_0" <- "a1" .* "b0";
    (*504*) "m_1_1" <- "a1" .* "b1";
    (*505*) "m_1_2" <- "a1" .* "b2";
    (*506*) "m_1_3" <- "a1" .* "b3";
    (*507*) "m_1_4" <- "a1" .* "b4";
    (*508*) "m_1_5" <- "a1" .* "b5";
    (*509*) "m_1_6" <- "a1" .* "b6";
    (*510*) "m_1_7" <- "a1" .* "b7";
    (*511*) "m_2_0" <- "a2" .* "b0";
    (*512*) "m_2_1" <- "a2" .* "b1";
    (*513*) "m_2_2" <- "a2" .* "b2";
    (*514*) "m_2_3" <- "a2" .* "b3";
    (*515*) "m_2_4" <- "a2" .* "b4";
    (*516*) "m_2_5" <- "a2" .* "b5";
    (*517*) "m_2_6" <- "a2" .* "b6";
    (*518*) "m_2_7" <- "a2" .* "b7";
    (*519*) "m_3_0" <- "a3" .* "b0";
    (*520*) "m_3_1" <- "a3" .* "b1";
    (*521*) "m_3_2" <- "a3" .* "b2";
    (*522*) "m_3_3" <- "a3" .* "b3";
    (*523*) "m_3_4" <- "a3" .* "b4";
    (*524*) "m_3_5" <- "a3" .* "b5";
    (*525*) "m_3_6" <- "a3" .* "b6";
    (*526*) "m_3_7" <- "a3" .* "b7";
    (*527*) "m_4_0" <- "a4" .* "b0";
    (*528*) "m_4_1" <- "a4" .* "b1";
    (*529*) "m_4_2" <- "a4" .* "b2";
    (*530*) "m_4_3" <- "a4" .* "b3";
    (*531*) "m_4_4" <- "a4" .* "b4";
    (*532*) "m_4_5" <- "a4" .* "b5";
    (*533*) "m_4_6" <- "a4" .* "b6";
    (*534*) "m_4_7" <- "a4" .* "b7";
    (*535*) "m_5_0" <- "a5" .* "b0";
    (*536*) "m_5_1" <- "a5" .* "b1";
    (*537*) "m_5_2" <- "a5" .* "b2";
    (*538*) "m_5_3" <- "a5" .* "b3";
    (*539*) "m_5_4" <- "a5" .* "b4";
    (*540*) "m_5_5" <- "a5" .* "b5";
    (*541*) "m_5_6" <- "a5" .* "b6";
    (*542*) "m_5_7" <- "a5" .* "b7";
    (*543*) "m_6_0" <- "a6" .* "b0";
    (*544*) "m_6_1" <- "a6" .* "b1";
    (*545*) "m_6_2" <- "a6" .* "b2";
    (*546*) "m_6_3" <- "a6" .* "b3";
    (*547*) "m_6_4" <- "a6" .* "b4";
    (*548*) "m_6_5" <- "a6" .* "b5";
    (*549*) "m_6_6" <- "a6" .* "b6";
    (*550*) "m_6_7" <- "a6" .* "b7";
    (*551*) "m_7_0" <- "a7" .* "b0";
    (*552*) "m_7_1" <- "a7" .* "b1";
    (*553*) "m_7_2" <- "a7" .* "b2";
    (*554*) "m_7_3" <- "a7" .* "b3";
    (*555*) "m_7_4" <- "a7" .* "b4";
    (*556*) "m_7_5" <- "a7" .* "b5";
    (*557*) "m_7_6" <- "a7" .* "b6";
    (*558*) "m_7_7" <- "a7" .* "b7";
    (*561*) "d0" <- ("m_0_0" .+ (("m_0_1" .& #0x1fffffff) .<< #29)) .+ (("m_1_0" .& #0x1fffffff) .<< #29);
    (*563*) "c0" <- "d0" .>> #58;
    (*564*) "d1" <- ((((((((("m_0_1" .>> #29) .+ "m_0_2") .+ (("m_0_3" .& #0x1fffffff) .<< #29)) .+ ("m_1_0" .>> #29)) .+ "m_1_1") .+ (("m_1_2" .& #0x1fffffff) .<< #29)) .+ "m_2_0") .+ (("m_2_1" .& #0x1fffffff) .<< #29)) .+ (("m_3_0" .& #0x1fffffff) .<< #29)) .+ "c0";
    (*568*) "c1" <- "d1" .>> #58;
    (*569*) "d2" <- ((((((((((((((("m_0_3" .>> #29) .+ "m_0_4") .+ (("m_0_5" .& #0x1fffffff) .<< #29)) .+ ("m_1_2" .>> #29)) .+ "m_1_3") .+ (("m_1_4" .& #0x1fffffff) .<< #29)) .+ ("m_2_1" .>> #29)) .+ "m_2_2") .+ (("m_2_3" .& #0x1fffffff) .<< #29)) .+ ("m_3_0" .>> #29)) .+ "m_3_1") .+ (("m_3_2" .& #0x1fffffff) .<< #29)) .+ "m_4_0") .+ (("m_4_1" .& #0x1fffffff) .<< #29)) .+ (("m_5_0" .& #0x1fffffff) .<< #29)) .+ "c1";
    (*575*) "c2" <- "d2" .>> #58;
    (*576*) "d3" <- ((((((((((((((((((((("m_0_5" .>> #29) .+ "m_0_6") .+ (("m_0_7" .& #0x1fffffff) .<< #29)) .+ ("m_1_4" .>> #29)) .+ "m_1_5") .+ (("m_1_6" .& #0x1fffffff) .<< #29)) .+ ("m_2_3" .>> #29)) .+ "m_2_4") .+ (("m_2_5" .& #0x1fffffff) .<< #29)) .+ ("m_3_2" .>> #29)) .+ "m_3_3") .+ (("m_3_4" .& #0x1fffffff) .<< #29)) .+ ("m_4_1" .>> #29)) .+ "m_4_2") .+ (("m_4_3" .& #0x1fffffff) .<< #29)) .+ ("m_5_0" .>> #29)) .+ "m_5_1") .+ (("m_5_2" .& #0x1fffffff) .<< #29)) .+ "m_6_0") .+ (("m_6_1" .& #0x1fffffff) .<< #29)) .+ (("m_7_0" .& #0x1fffffff) .<< #29)) .+ "c2";
    (*584*) "c3" <- "d3" .>> #58;
    (*585*) "d4" <- ((((((((((((((((((((("m_0_7" .>> #29) .+ ("m_1_6" .>> #29)) .+ "m_1_7") .+ ("m_2_5" .>> #29)) .+ "m_2_6") .+ (("m_2_7" .& #0x1fffffff) .<< #29)) .+ ("m_3_4" .>> #29)) .+ "m_3_5") .+ (("m_3_6" .& #0x1fffffff) .<< #29)) .+ ("m_4_3" .>> #29)) .+ "m_4_4") .+ (("m_4_5" .& #0x1fffffff) .<< #29)) .+ ("m_5_2" .>> #29)) .+ "m_5_3") .+ (("m_5_4" .& #0x1fffffff) .<< #29)) .+ ("m_6_1" .>> #29)) .+ "m_6_2") .+ (("m_6_3" .& #0x1fffffff) .<< #29)) .+ ("m_7_0" .>> #29)) .+ "m_7_1") .+ (("m_7_2" .& #0x1fffffff) .<< #29)) .+ "c3";
    (*594*) "c4" <- "d4" .>> #58;
    (*595*) "d5" <- ((((((((((((((("m_2_7" .>> #29) .+ ("m_3_6" .>> #29)) .+ "m_3_7") .+ ("m_4_5" .>> #29)) .+ "m_4_6") .+ (("m_4_7" .& #0x1fffffff) .<< #29)) .+ ("m_5_4" .>> #29)) .+ "m_5_5") .+ (("m_5_6" .& #0x1fffffff) .<< #29)) .+ ("m_6_3" .>> #29)) .+ "m_6_4") .+ (("m_6_5" .& #0x1fffffff) .<< #29)) .+ ("m_7_2" .>> #29)) .+ "m_7_3") .+ (("m_7_4" .& #0x1fffffff) .<< #29)) .+ "c4";
    (*602*) "c5" <- "d5" .>> #58;
    (*603*) "d6" <- ((((((((("m_4_7" .>> #29) .+ ("m_5_6" .>> #29)) .+ "m_5_7") .+ ("m_6_5" .>> #29)) .+ "m_6_6") .+ (("m_6_7" .& #0x1fffffff) .<< #29)) .+ ("m_7_4" .>> #29)) .+ "m_7_5") .+ (("m_7_6" .& #0x1fffffff) .<< #29)) .+ "c5";
    (*608*) "c6" <- "d6" .>> #58;
    (*609*) "d7" <- ((("m_6_7" .>> #29) .+ ("m_7_6" .>> #29)) .+ "m_7_7") .+ "c6";
    (*616*) "l0_0" <- "d0" .& #0x03ffffffffffffff;
    (*617*) "l1_0" <- "d1" .& #0x03ffffffffffffff;
    (*618*) "l2_0" <- "d2" .& #0x03ffffffffffffff;
    (*619*) "l3_0" <- "d3" .& #0x00007fffffffffff;
    (*622*) "h0_0" <- (("d3" .& #0x03ffffffffffffff) .>> #47) .| (("d4" .& #0x00007fffffffffff) .<< #11);
    (*624*) "h1_0" <- (("d4" .& #0x03ffffffffffffff) .>> #47) .| (("d5" .& #0x00007fffffffffff) .<< #11);
    (*626*) "h2_0" <- (("d5" .& #0x03ffffffffffffff) .>> #47) .| (("d6" .& #0x00007fffffffffff) .<< #11);
    (*628*) "h3_0" <- (("d6" .& #0x03ffffffffffffff) .>> #47) .| ("d7" .<< #11);
    (*632*) "hc0_0" <- "h0_0" .* (EInt C_VAL);
    (*633*) "hc1_0" <- "h1_0" .* (EInt C_VAL);
    (*634*) "hc2_0" <- "h2_0" .* (EInt C_VAL);
    (*635*) "hc3_0" <- "h3_0" .* (EInt C_VAL);
    (*638*) "kin_0" <- "hc3_0" .>> #47;
    (*639*) "s0_0" <- ("l0_0" .+ "hc0_0") .+ ("kin_0" .* (EInt C_VAL));
    (*640*) "k0_0" <- "s0_0" .>> #58;
    (*641*) "s1_0" <- ("l1_0" .+ "hc1_0") .+ "k0_0";
    (*642*) "k1_0" <- "s1_0" .>> #58;
    (*643*) "s2_0" <- ("l2_0" .+ "hc2_0") .+ "k1_0";
    (*644*) "k2_0" <- "s2_0" .>> #58;
    (*645*) "s3_0" <- ("l3_0" .+ ("hc3_0" .& #0x00007fffffffffff)) .+ "k2_0";
    (*647*) SSet "self" #0 ("s0_0" .& #0x03ffffffffffffff);
    (*648*) SSet "self" #1 ("s1_0" .& #0x03ffffffffffffff);
    (*649*) SSet "self" #2 ("s2_0" .& #0x03ffffffffffffff);
    (*650*) SSet "self" #3 ("s3_0") ]
    [].

(* src/field/mod_e221_3.rs:655-657  MulAssign<F>  F::mul_assign(F) *)
Definition f_mul_assign_val : func := mkfunc ["self"; "rhs"] [
    (*656*) SCall [] "F::mul_assign(&F)" [AMut "self"; AVal "rhs"] ]
    [].

(* src/field/mod_e221_3.rs:663-665  Mul<&F>  i32::mul(&F) *)
Definition f_i32_mul_ref : func := mkfunc ["self"; "a"] [
    (*664*) SCall ["%1"] "F::small_mul" [AVal "a"; AVal "self"] ]
    [EVar "%1"].

(* src/field/mod_e221_3.rs:671-673  Mul<&F>  i16::mul(&F) *)
Definition f_i16_mul_ref : func := mkfunc ["self"; "a"] [
    (*672*) SCall ["%1"] "F::small_mul" [AVal "a"; AVal (ECast I32 "self")] ]
    [EVar "%1"].

(* src/field/mod_e221_3.rs:679-681  Mul<&F>  i8::mul(&F) *)
Definition f_i8_mul_ref : func := mkfunc ["self"; "a"] [
    (*680*) SCall ["%1"] "F::small_mul" [AVal "a"; AVal (ECast I32 "self")] ]
    [EVar "%1"].

(* src/field/mod_e221_3.rs:687-689  Mul<i32>  (&F)::mul(i32) *)
Definition f_ref_mul_i32 : func := mkfunc ["self"; "a"] [
    (*688*) SCall ["%1"] "F::small_mul" [AVal "self"; AVal "a"] ]
    [EVar "%1"].

(* src/field/mod_e221_3.rs:695-697  Mul<i16>  (&F)::mul(i16) *)
Definition f_ref_mul_i16 : func := mkfunc ["self"; "a"] [
    (*696*) SCall ["%1"] "F::small_mul" [AVal "self"; AVal (ECast I32 "a")] ]
    [EVar "%1"].

(* src/field/mod_e221_3.rs:703-705  Mul<i8>  (&F)::mul(i8) *)
Definition f_ref_mul_i8 : func := mkfunc ["self"; "a"] [
    (*704*) SCall ["%1"] "F::small_mul" [AVal "self"; AVal (ECast I32 "a")] ]
    [EVar "%1"].

(* src/field/mod_e221_3.rs:711-713  Mul<i32>  F::mul(i32) *)
Definition f_mul_i32 : func := mkfunc ["self"; "a"] [
    (*712*) SCall ["%1"] "(&F)::mul(i32)" [AVal "self"; AVal "a"] ]
    [EVar "%1"].

(* src/field/mod_e221_3.rs:719-721  Mul<i16>  F::mul(i16) *)
Definition f_mul_i16 : func := mkfunc ["self"; "a"] [
    (*720*) SCall ["%1"] "(&F)::mul(i16)" [AVal "self"; AVal "a"] ]
    [EVar "%1"].

(* src/field/mod_e221_3.rs:727-729  Mul<i8>  F::mul(i8) *)
Definition f_mul_i8 : func := mkfunc ["self"; "a"] [
    (*728*) SCall ["%1"] "(&F)::mul(i8)" [AVal "self"; AVal "a"] ]
    [EVar "%1"].

(* src/field/mod_e221_3.rs:735-739  Mul<&F>  (&F)::mul(&F) *)
Definition f_ref_mul_ref : func := mkfunc ["self"; "a"] [
    (*736*) "out" <- "self";
    (*737*) SCall [] "F::mul_assign(&F)" [AMut "out"; AVal "a"] ]
    [EVar "out"].

(* src/field/mod_e221_3.rs:745-747  Mul<F>  F::mul(F) *)
Definition f_mul_val : func := mkfunc ["self"; "a"] [
    (*746*) SCall ["%1"] "(&F)::mul(&F)" [AVal "self"; AVal "a"] ]
    [EVar "%1"].

(* src/field/mod_e221_3.rs:751-759  Rand  F::rand *)
Definition f_rand : func := mkfunc ["rng"] [
    (*752*) "out" <- ERep #0 4;
    (*754*) SFor "i" #0 #4 [
      (*755*) SGenRange "%1" "rng" #0 ((ELit MODULUS).["i"]);
      (*755*) SSet "out" "i" ("%1") ] ]
    [EVar "out"].

(* src/field/mod_e221_3.rs:763-795  Pack  F::unpack *)
Definition f_unpack : func := mkfunc ["self"; "bytes"] [
    (*764*) SSet "self" #0 (((((((((ECast I64 ("bytes".[#0])) .& #0x00000000000000ff) .| (((ECast I64 ("bytes".[#1])) .<< #8) .& #0x000000000000ff00)) .| (((ECast I64 ("bytes".[#2])) .<< #16) .& #0x0000000000ff0000)) .| (((ECast I64 ("bytes".[#3])) .<< #24) .& #0x00000000ff000000)) .| (((ECast I64 ("bytes".[#4])) .<< #32) .& #0x000000ff00000000)) .| (((ECast I64 ("bytes".[#5])) .<< #40) .& #0x0000ff0000000000)) .| (((ECast I64 ("bytes".[#6])) .<< #48) .& #0x00ff000000000000)) .| (((ECast I64 ("bytes".[#7])) .<< #56) .& #0x0300000000000000));
    (*772*) SSet "self" #1 ((((((((((ECast I64 ("bytes".[#7])) .>> #2) .& #0x000000000000003f) .| (((ECast I64 ("bytes".[#8])) .<< #6) .& #0x0000000000003fc0)) .| (((ECast I64 ("bytes".[#9])) .<< #14) .& #0x00000000003fc000)) .| (((ECast I64 ("bytes".[#10])) .<< #22) .& #0x000000003fc00000)) .| (((ECast I64 ("bytes".[#11])) .<< #30) .& #0x0000003fc0000000)) .| (((ECast I64 ("bytes".[#12])) .<< #38) .& #0x00003fc000000000)) .| (((ECast I64 ("bytes".[#13])) .<< #46) .& #0x003fc00000000000)) .| (((ECast I64 ("bytes".[#14])) .<< #54) .& #0x03c0000000000000));
    (*780*) SSet "self" #2 ((((((((((ECast I64 ("bytes".[#14])) .>> #4) .& #0x000000000000000f) .| (((ECast I64 ("bytes".[#15])) .<< #4) .& #0x0000000000000ff0)) .| (((ECast I64 ("bytes".[#16])) .<< #12) .& #0x00000000000ff000)) .| (((ECast I64 ("bytes".[#17])) .<< #20) .& #0x000000000ff00000)) .| (((ECast I64 ("bytes".[#18])) .<< #28) .& #0x0000000ff0000000)) .| (((ECast I64 ("bytes".[#19])) .<< #36) .& #0x00000ff000000000)) .| (((ECast I64 ("bytes".[#20])) .<< #44) .& #0x000ff00000000000)) .| (((ECast I64 ("bytes".[#21])) .<< #52) .& #0x03f0000000000000));
    (*788*) SSet "self" #3 (((((((((ECast I64 ("bytes".[#21])) .>> #6) .& #0x0000000000000003) .| (((ECast I64 ("bytes".[#22])) .<< #2) .& #0x00000000000003fc)) .| (((ECast I64 ("bytes".[#23])) .<< #10) .& #0x000000000003fc00)) .| (((ECast I64 ("bytes".[#24])) .<< #18) .& #0x0000000003fc0000)) .| (((ECast I64 ("bytes".[#25])) .<< #26) .& #0x00000003fc000000)) .| (((ECast I64 ("bytes".[#26])) .<< #34) .& #0x000003fc00000000)) .| (((ECast I64 ("bytes".[#27])) .<< #42) .& #0x00007c0000000000)) ]
    [].

(* src/field/mod_e221_3.rs:797-801  Pack  F::unpacked *)
Definition f_unpacked : func := mkfunc ["bytes"] [
    (*798*) "out" <- ELit ZERO;
    (*799*) SCall [] "F::unpack" [AMut "out"; AVal "bytes"] ]
    [EVar "out"].

(* src/field/mod_e221_3.rs:803-806  Pack  F::pack *)
Definition f_pack : func := mkfunc ["self"; "bytes"] [
    (*804*) SCall [] "F::normalize" [AMut "self"];
    (*805*) SCall [] "F::pack_normalized" [AVal "self"; AMut "bytes"] ]
    [].

(* src/field/mod_e221_3.rs:808-840  Pack  F::pack_normalized *)
Definition f_pack_normalized : func := mkfunc ["self"; "bytes"] [
    (*809*) SSet "bytes" #0 (ECast U8 (("self".[#0]) .& #255));
    (*810*) SSet "bytes" #1 (ECast U8 ((("self".[#0]) .>> #8) .& #255));
    (*811*) SSet "bytes" #2 (ECast U8 ((("self".[#0]) .>> #16) .& #255));
    (*812*) SSet "bytes" #3 (ECast U8 ((("self".[#0]) .>> #24) .& #255));
    (*813*) SSet "bytes" #4 (ECast U8 ((("self".[#0]) .>> #32) .& #255));
    (*814*) SSet "bytes" #5 (ECast U8 ((("self".[#0]) .>> #40) .& #255));
    (*815*) SSet "bytes" #6 (ECast U8 ((("self".[#0]) .>> #48) .& #255));
    (*816*) SSet "bytes" #7 ((ECast U8 ((("self".[#0]) .>> #56) .& #3)) .| (ECast U8 ((("self".[#1]) .<< #2) .& #252)));
    (*818*) SSet "bytes" #8 (ECast U8 ((("self".[#1]) .>> #6) .& #255));
    (*819*) SSet "bytes" #9 (ECast U8 ((("self".[#1]) .>> #14) .& #255));
    (*820*) SSet "bytes" #10 (ECast U8 ((("self".[#1]) .>> #22) .& #255));
    (*821*) SSet "bytes" #11 (ECast U8 ((("self".[#1]) .>> #30) .& #255));
    (*822*) SSet "bytes" #12 (ECast U8 ((("self".[#1]) .>> #38) .& #255));
    (*823*) SSet "bytes" #13 (ECast U8 ((("self".[#1]) .>> #46) .& #255));
    (*824*) SSet "bytes" #14 ((ECast U8 ((("self".[#1]) .>> #54) .& #15)) .| (ECast U8 ((("self".[#2]) .<< #4) .& #240)));
    (*826*) SSet "bytes" #15 (ECast U8 ((("self".[#2]) .>> #4) .& #255));
    (*827*) SSet "bytes" #16 (ECast U8 ((("self".[#2]) .>> #12) .& #255));
    (*828*) SSet "bytes" #17 (ECast U8 ((("self".[#2]) .>> #20) .& #255));
    (*829*) SSet "bytes" #18 (ECast U8 ((("self".[#2]) .>> #28) .& #255));
    (*830*) SSet "bytes" #19 (ECast U8 ((("self".[#2]) .>> #36) .& #255));
    (*831*) SSet "bytes" #20 (ECast U8 ((("self".[#2]) .>> #44) .& #255));
    (*832*) SSet "bytes" #21 ((ECast U8 ((("self".[#2]) .>> #52) .& #63)) .| (ECast U8 ((("self".[#3]) .<< #6) .& #192)));
    (*834*) SSet "bytes" #22 (ECast U8 ((("self".[#3]) .>> #2) .& #255));
    (*835*) SSet "bytes" #23 (ECast U8 ((("self".[#3]) .>> #10) .& #255));
    (*836*) SSet "bytes" #24 (ECast U8 ((("self".[#3]) .>> #18) .& #255));
    (*837*) SSet "bytes" #25 (ECast U8 ((("self".[#3]) .>> #26) .& #255));
    (*838*) SSet "bytes" #26 (ECast U8 ((("self".[#3]) .>> #34) .& #255));
    (*839*) SSet "bytes" #27 (ECast U8 ((("self".[#3]) .>> #42) .& #31)) ]
    [].

(* src/field/mod_e221_3.rs:842-844  Pack  F::nbytes *)
Definition f_nbytes : func := mkfunc [] [
 ]
    [#28].

(* src/field/mod_e221_3.rs:848-852  Normalize  F::normalize *)
Definition f_normalize : func := mkfunc ["self"] [
    (*849*) SCall ["plusc"] "(&F)::add(i32)" [AVal "self"; AVal (ECast I32 (EInt C_VAL))];
    (*850*) SCall ["offset"] "(&F)::mul(i32)" [AVal (ELit MODULUS); AVal (ECast I32 (carry_out "plusc"))];
    (*851*) SCall [] "F::sub_assign(&F)" [AMut "self"; AVal "offset"] ]
    [].

(* src/field/mod_e221_3.rs:856-867  NormalizeEq  F::normalize_self_eq *)
Definition f_normalize_self_eq : func := mkfunc ["self"; "other"] [
    (*857*) "are_equal" <- #1;
    (*859*) SCall [] "F::normalize" [AMut "self"];
    (*861*) "are_equal" <- "are_equal" .& (EEq ("self".[#0]) ("other".[#0]));
    (*862*) "are_equal" <- "are_equal" .& (EEq ("self".[#1]) ("other".[#1]));
    (*863*) "are_equal" <- "are_equal" .& (EEq ("self".[#2]) ("other".[#2]));
    (*864*) "are_equal" <- "are_equal" .& (EEq ("self".[#3]) ("other".[#3])) ]
    [EVar "are_equal"].

(* src/field/mod_e221_3.rs:869-872  NormalizeEq  F::normalize_eq *)
Definition f_normalize_eq : func := mkfunc ["self"; "other"] [
    (*870*) SCall [] "F::normalize" [AMut "other"];
    (*871*) SCall ["%1"] "F::normalize_self_eq" [AMut "self"; AVal "other"] ]
    [EVar "%1"].

(* src/field/mod_e221_3.rs:876-890  PrimeFieldMask  Mask::fill *)
Definition f_Mask_fill : func := mkfunc ["self"; "bit"] [
    (*877*) "mask" <- ECast I64 "bit";
    (*879*) "mask" <- "mask" .| ("mask" .<< #1);
    (*880*) "mask" <- "mask" .| ("mask" .<< #2);
    (*881*) "mask" <- "mask" .| ("mask" .<< #4);
    (*882*) "mask" <- "mask" .| ("mask" .<< #8);
    (*883*) "mask" <- "mask" .| ("mask" .<< #16);
    (*884*) "mask" <- "mask" .| ("mask" .<< #32);
    (*886*) SSet "self" #0 ("mask");
    (*887*) SSet "self" #1 ("mask");
    (*888*) SSet "self" #2 ("mask");
    (*889*) SSet "self" #3 ("mask") ]
    [].

(* src/field/mod_e221_3.rs:892-903  PrimeFieldMask  Mask::filled *)
Definition f_Mask_filled : func := mkfunc ["bit"] [
    (*893*) "mask" <- ECast I64 "bit";
    (*895*) "mask" <- "mask" .| ("mask" .<< #1);
    (*896*) "mask" <- "mask" .| ("mask" .<< #2);
    (*897*) "mask" <- "mask" .| ("mask" .<< #4);
    (*898*) "mask" <- "mask" .| ("mask" .<< #8);
    (*899*) "mask" <- "mask" .| ("mask" .<< #16);
    (*900*) "mask" <- "mask" .| ("mask" .<< #32) ]
    [ERep "mask" 4].

(* src/field/mod_e221_3.rs:907-921  PrimeField  F::fill *)
Definition f_fill : func := mkfunc ["self"; "bit"] [
    (*908*) "mask" <- ECast I64 "bit";
    (*910*) "mask" <- "mask" .| ("mask" .<< #1);
    (*911*) "mask" <- "mask" .| ("mask" .<< #2);
    (*912*) "mask" <- "mask" .| ("mask" .<< #4);
    (*913*) "mask" <- "mask" .| ("mask" .<< #8);
    (*914*) "mask" <- "mask" .| ("mask" .<< #16);
    (*915*) "mask" <- "mask" .| ("mask" .<< #32);
    (*917*) SSet "self" #0 ("mask");
    (*918*) SSet "self" #1 ("mask");
    (*919*) SSet "self" #2 ("mask");
    (*920*) SSet "self" #3 ("mask") ]
    [].

(* src/field/mod_e221_3.rs:923-934  PrimeField  F::filled *)
Definition f_filled : func := mkfunc ["bit"] [
    (*924*) "mask" <- ECast I64 "bit";
    (*926*) "mask" <- "mask" .| ("mask" .<< #1);
    (*927*) "mask" <- "mask" .| ("mask" .<< #2);
    (*928*) "mask" <- "mask" .| ("mask" .<< #4);
    (*929*) "mask" <- "mask" .| ("mask" .<< #8);
    (*930*) "mask" <- "mask" .| ("mask" .<< #16);
    (*931*) "mask" <- "mask" .| ("mask" .<< #32) ]
    [ERep "mask" 4].

(* src/field/mod_e221_3.rs:936-936  PrimeField  F::nbits *)
Definition f_nbits : func := mkfunc [] [
 ]
    [#221].

(* src/field/mod_e221_3.rs:938-943  PrimeField  F::bit_normalized *)
Definition f_bit_normalized : func := mkfunc ["self"; "idx"] [
    (*939*) "byte" <- EUDiv "idx" #58;
    (*940*) "bit" <- EURem "idx" #58 ]
    [EEq ((("self".["byte"]) .>> "bit") .& #0x1) #0x1].

(* src/field/mod_e221_3.rs:945-948  PrimeField  F::bit *)
Definition f_bit : func := mkfunc ["self"; "idx"] [
    (*946*) SCall [] "F::normalize" [AMut "self"];
    (*947*) SCall ["%1"] "F::bit_normalized" [AVal "self"; AVal "idx"] ]
    [EVar "%1"].

(* src/field/mod_e221_3.rs:950-953  PrimeField  F::normalize_bitand *)
Definition f_normalize_bitand : func := mkfunc ["self"; "rhs"] [
    (*951*) SCall [] "F::normalize" [AMut "rhs"];
    (*952*) SCall [] "F::normalize_self_bitand" [AMut "self"; AVal "rhs"] ]
    [].

(* src/field/mod_e221_3.rs:955-958  PrimeField  F::normalize_self_bitand *)
Definition f_normalize_self_bitand : func := mkfunc ["self"; "rhs"] [
    (*956*) SCall [] "F::normalize" [AMut "self"];
    (*957*) SCall [] "F::normalized_bitand" [AMut "self"; AVal "rhs"] ]
    [].

(* src/field/mod_e221_3.rs:960-965  PrimeField  F::normalized_bitand *)
Definition f_normalized_bitand : func := mkfunc ["self"; "rhs"] [
    (*961*) SSet "self" #0 (("self".[#0]) .& ("rhs".[#0]));
    (*962*) SSet "self" #1 (("self".[#1]) .& ("rhs".[#1]));
    (*963*) SSet "self" #2 (("self".[#2]) .& ("rhs".[#2]));
    (*964*) SSet "self" #3 (("self".[#3]) .& ("rhs".[#3])) ]
    [].

(* src/field/mod_e221_3.rs:967-970  PrimeField  F::normalize_bitor *)
Definition f_normalize_bitor : func := mkfunc ["self"; "rhs"] [
    (*968*) SCall [] "F::normalize" [AMut "rhs"];
    (*969*) SCall [] "F::normalize_self_bitor" [AMut "self"; AVal "rhs"] ]
    [].

(* src/field/mod_e221_3.rs:972-975  PrimeField  F::normalize_self_bitor *)
Definition f_normalize_self_bitor : func := mkfunc ["self"; "rhs"] [
    (*973*) SCall [] "F::normalize" [AMut "self"];
    (*974*) SCall [] "F::normalized_bitor" [AMut "self"; AVal "rhs"] ]
    [].

(* src/field/mod_e221_3.rs:977-982  PrimeField  F::normalized_bitor *)
Definition f_normalized_bitor : func := mkfunc ["self"; "rhs"] [
    (*978*) SSet "self" #0 (("self".[#0]) .| ("rhs".[#0]));
    (*979*) SSet "self" #1 (("self".[#1]) .| ("rhs".[#1]));
    (*980*) SSet "self" #2 (("self".[#2]) .| ("rhs".[#2]));
    (*981*) SSet "self" #3 (("self".[#3]) .| ("rhs".[#3])) ]
    [].

(* src/field/mod_e221_3.rs:984-986  PrimeField  F::zero *)
Definition f_zero : func := mkfunc [] [
 ]
    [ELit ZERO].

(* src/field/mod_e221_3.rs:988-990  PrimeField  F::one *)
Definition f_one : func := mkfunc [] [
 ]
    [ELit ONE].

(* src/field/mod_e221_3.rs:992-994  PrimeField  F::m_one *)
Definition f_m_one : func := mkfunc [] [
 ]
    [ELit M_ONE].

(* src/field/mod_e221_3.rs:996-998  PrimeField  F::modulus *)
Definition f_modulus : func := mkfunc [] [
 ]
    [ELit MODULUS].

(* src/field/mod_e221_3.rs:1000-1169  PrimeField  F::square *)
Definition f_square : func := mkfunc ["self"] [
    (*1002*) "a0" <- ("self".[#0]) .& #0x1fffffff;
    (*1003*) "a1" <- ("self".[#0]) .>> #29;
    (*1004*) "a2" <- ("self".[#1]) .& #0x1fffffff;
    (*1005*) "a3" <- ("self".[#1]) .>> #29;
    (*1006*) "a4" <- ("self".[#2]) .& #0x1fffffff;
    (*1007*) "a5" <- ("self".[#2]) .>> #29;
    (*1008*) "a6" <- ("self".[#3]) .& #0x1fffffff;
    (*1009*) "a7" <- ("self".[#3]) .>> #29;
    (*1012*) "m_0_0" <- "a0" .* "a0";
    (*1013*) "m_0_1" <- "a0" .* "a1";
    (*1014*) "m_0_2" <- "a0" .* "a2";
    (*1015*) "m_0_3" <- "a0" .* "a3";
    (*1016*) "m_0_4" <- "a0" .* "a4";
    (*1017*) "m_0_5" <- "a0" .* "a5";
    (*1018*) "m_0_6" <- "a0" .* "a6";
    (*1019*) "m_0_7" <- "a0" .* "a7";
    (*1020*) "m_1_0" <- "m_0_1";
    (*1021*) "m_1_1" <- "a1" .* "a1";
    (*1022*) "m_1_2" <- "a1" .* "a2";
    (*1023*) "m_1_3" <- "a1" .* "a3";
    (*1024*) "m_1_4" <- "a1" .* "a4";
    (*1025*) "m_1_5" <- "a1" .* "a5";
    (*1026*) "m_1_6" <- "a1" .* "a6";
    (*1027*) "m_1_7" <- "a1" .* "a7";
    (*1028*) "m_2_0" <- "m_0_2";
    (*1029*) "m_2_1" <- "m_1_2";
    (*1030*) "m_2_2" <- "a2" .* "a2";
    (*1031*) "m_2_3" <- "a2" .* "a3";
    (*1032*) "m_2_4" <- "a2" .* "a4";
    (*1033*) "m_2_5" <- "a2" .* "a5";
    (*1034*) "m_2_6" <- "a2" .* "a6";
    (*1035*) "m_2_7" <- "a2" .* "a7";
    (*1036*) "m_3_0" <- "m_0_3";
    (*1037*) "m_3_1" <- "m_1_3";
    (*1038*) "m_3_2" <- "m_2_3";
    (*1039*) "m_3_3" <- "a3" .* "a3";
    (*1040*) "m_3_4" <- "a3" .* "a4";
    (*1041*) "m_3_5" <- "a3" .* "a5";
    (*1042*) "m_3_6" <- "a3" .* "a6";
    (*1043*) "m_3_7" <- "a3" .* "a7";
    (*1044*) "m_4_0" <- "m_0_4";
    (*1045*) "m_4_1" <- "m_1_4";
    (*1046*) "m_4_2" <- "m_2_4";
    (*1047*) "m_4_3" <- "m_3_4";
    (*1048*) "m_4_4" <- "a4" .* "a4";
    (*1049*) "m_4_5" <- "a4" .* "a5";
    (*1050*) "m_4_6" <- "a4" .* "a6";
    (*1051*) "m_4_7" <- "a4" .* "a7";
    (*1052*) "m_5_0" <- "m_0_5";
    (*1053*) "m_5_1" <- "m_1_5";
    (*1054*) "m_5_2" <- "m_2_5";
    (*1055*) "m_5_3" <- "m_3_5";
    (*1056*) "m_5_4" <- "m_4_5";
    (*1057*) "m_5_5" <- "a5" .* "a5";
    (*1058*) "m_5_6" <- "a5" .* "a6";
    (*1059*) "m_5_7" <- "a5" .* "a7";
    (*1060*) "m_6_0" <- "m_0_6";
    (*1061*) "m_6_1" <- "m_1_6";
    (*1062*) "m_6_2" <- "m_2_6";
    (*1063*) "m_6_3" <- "m_3_6";
    (*1064*) "m_6_4" <- "m_4_6";
    (*1065*) "m_6_5" <- "m_5_6";
    (*1066*) "m_6_6" <- "a6" .* "a6";
    (*1067*) "m_6_7" <- "a6" .* "a7";
    (*1068*) "m_7_0" <- "m_0_7";
    (*1069*) "m_7_1" <- "m_1_7";
    (*1070*) "m_7_2" <- "m_2_7";
    (*1071*) "m_7_3" <- "m_3_7";
    (*1072*) "m_7_4" <- "m_4_7";
    (*1073*) "m_7_5" <- "m_5_7";
    (*1074*) "m_7_6" <- "m_6_7";
    (*1075*) "m_7_7" <- "a7" .* "a7";
    (*1078*) "d0" <- ("m_0_0" .+ (("m_0_1" .& #0x1fffffff) .<< #29)) .+ (("m_1_0" .& #0x1fffffff) .<< #29);
    (*1080*) "c0" <- "d0" .>> #58;
    (*1081*) "d1" <- ((((((((("m_0_1" .>> #29) .+ "m_0_2") .+ (("m_0_3" .& #0x1fffffff) .<< #29)) .+ ("m_1_0" .>> #29)) .+ "m_1_1") .+ (("m_1_2" .& #0x1fffffff) .<< #29)) .+ "m_2_0") .+ (("m_2_1" .& #0x1fffffff) .<< #29)) .+ (("m_3_0" .& #0x1fffffff) .<< #29)) .+ "c0";
    (*1085*) "c1" <- "d1" .>> #58;
    (*1086*) "d2" <- ((((((((((((((("m_0_3" .>> #29) .+ "m_0_4") .+ (("m_0_5" .& #0x1fffffff) .<< #29)) .+ ("m_1_2" .>> #29)) .+ "m_1_3") .+ (("m_1_4" .& #0x1fffffff) .<< #29)) .+ ("m_2_1" .>> #29)) .+ "m_2_2") .+ (("m_2_3" .& #0x1fffffff) .<< #29)) .+ ("m_3_0" .>> #29)) .+ "m_3_1") .+ (("m_3_2" .& #0x1fffffff) .<< #29)) .+ "m_4_0") .+ (("m_4_1" .& #0x1fffffff) .<< #29)) .+ (("m_5_0" .& #0x1fffffff) .<< #29)) .+ "c1";
    (*1092*) "c2" <- "d2" .>> #58;
    (*1093*) "d3" <- ((((((((((((((((((((("m_0_5" .>> #29) .+ "m_0_6") .+ (("m_0_7" .& #0x1fffffff) .<< #29)) .+ ("m_1_4" .>> #29)) .+ "m_1_5") .+ (("m_1_6" .& #0x1fffffff) .<< #29)) .+ ("m_2_3" .>> #29)) .+ "m_2_4") .+ (("m_2_5" .& #0x1fffffff) .<< #29)) .+ ("m_3_2" .>> #29)) .+ "m_3_3") .+ (("m_3_4" .& #0x1fffffff) .<< #29)) .+ ("m_4_1" .>> #29)) .+ "m_4_2") .+ (("m_4_3" .& #0x1fffffff) .<< #29)) .+ ("m_5_0" .>> #29)) .+ "m_5_1") .+ (("m_5_2" .& #0x1fffffff) .<< #29)) .+ "m_6_0") .+ (("m_6_1" .& #0x1fffffff) .<< #29)) .+ (("m_7_0" .& #0x1fffffff) .<< #29)) .+ "c2";
    (*1101*) "c3" <- "d3" .>> #58;
    (*1102*) "d4" <- ((((((((((((((((((((("m_0_7" .>> #29) .+ ("m_1_6" .>> #29)) .+ "m_1_7") .+ ("m_2_5" .>> #29)) .+ "m_2_6") .+ (("m_2_7" .& #0x1fffffff) .<< #29)) .+ ("m_3_4" .>> #29)) .+ "m_3_5") .+ (("m_3_6" .& #0x1fffffff) .<< #29)) .+ ("m_4_3" .>> #29)) .+ "m_4_4") .+ (("m_4_5" .& #0x1fffffff) .<< #29)) .+ ("m_5_2" .>> #29)) .+ "m_5_3") .+ (("m_5_4" .& #0x1fffffff) .<< #29)) .+ ("m_6_1" .>> #29)) .+ "m_6_2") .+ (("m_6_3" .& #0x1fffffff) .<< #29)) .+ ("m_7_0" .>> #29)) .+ "m_7_1") .+ (("m_7_2" .& #0x1fffffff) .<< #29)) .+ "c3";
    (*1111*) "c4" <- "d4" .>> #58;
    (*1112*) "d5" <- ((((((((((((((("m_2_7" .>> #29) .+ ("m_3_6" .>> #29)) .+ "m_3_7") .+ ("m_4_5" .>> #29)) .+ "m_4_6") .+ (("m_4_7" .& #0x1fffffff) .<< #29)) .+ ("m_5_4" .>> #29)) .+ "m_5_5") .+ (("m_5_6" .& #0x1fffffff) .<< #29)) .+ ("m_6_3" .>> #29)) .+ "m_6_4") .+ (("m_6_5" .& #0x1fffffff) .<< #29)) .+ ("m_7_2" .>> #29)) .+ "m_7_3") .+ (("m_7_4" .& #0x1fffffff) .<< #29)) .+ "c4";
    (*1119*) "c5" <- "d5" .>> #58;
    (*1120*) "d6" <- ((((((((("m_4_7" .>> #29) .+ ("m_5_6" .>> #29)) .+ "m_5_7") .+ ("m_6_5" .>> #29)) .+ "m_6_6") .+ (("m_6_7" .& #0x1fffffff) .<< #29)) .+ ("m_7_4" .>> #29)) .+ "m_7_5") .+ (("m_7_6" .& #0x1fffffff) .<< #29)) .+ "c5";
    (*1125*) "c6" <- "d6" .>> #58;
    (*1126*) "d7" <- ((("m_6_7" .>> #29) .+ ("m_7_6" .>> #29)) .+ "m_7_7") .+ "c6";
    (*1133*) "l0_0" <- "d0" .& #0x03ffffffffffffff;
    (*1134*) "l1_0" <- "d1" .& #0x03ffffffffffffff;
    (*1135*) "l2_0" <- "d2" .& #0x03ffffffffffffff;
    (*1136*) "l3_0" <- "d3" .& #0x00007fffffffffff;
    (*1140*) "h0_0" <- (("d3" .& #0x03ffffffffffffff) .>> #47) .| (("d4" .& #0x00007fffffffffff) .<< #11);
    (*1142*) "h1_0" <- (("d4" .& #0x03ffffffffffffff) .>> #47) .| (("d5" .& #0x00007fffffffffff) .<< #11);
    (*1144*) "h2_0" <- (("d5" .& #0x03ffffffffffffff) .>> #47) .| (("d6" .& #0x00007fffffffffff) .<< #11);
    (*1146*) "h3_0" <- (("d6" .& #0x03ffffffffffffff) .>> #47) .| ("d7" .<< #11);
    (*1150*) "hc0_0" <- "h0_0" .* (EInt C_VAL);
    (*1151*) "hc1_0" <- "h1_0" .* (EInt C_VAL);
    (*1152*) "hc2_0" <- "h2_0" .* (EInt C_VAL);
    (*1153*) "hc3_0" <- "h3_0" .* (EInt C_VAL);
    (*1156*) "kin_0" <- "hc3_0" .>> #47;
    (*1157*) "s0_0" <- ("l0_0" .+ "hc0_0") .+ ("kin_0" .* (EInt C_VAL));
    (*1158*) "k0_0" <- "s0_0" .>> #58;
    (*1159*) "s1_0" <- ("l1_0" .+ "hc1_0") .+ "k0_0";
    (*1160*) "k1_0" <- "s1_0" .>> #58;
    (*1161*) "s2_0" <- ("l2_0" .+ "hc2_0") .+ "k1_0";
    (*1162*) "k2_0" <- "s2_0" .>> #58;
    (*1163*) "s3_0" <- ("l3_0" .+ ("hc3_0" .& #0x00007fffffffffff)) .+ "k2_0";
    (*1165*) SSet "self" #0 ("s0_0" .& #0x03ffffffffffffff);
    (*1166*) SSet "self" #1 ("s1_0" .& #0x03ffffffffffffff);
    (*1167*) SSet "self" #2 ("s2_0" .& #0x03ffffffffffffff);
    (*1168*) SSet "self" #3 ("s3_0") ]
    [].

(* src/field/mod_e221_3.rs:1171-1177  PrimeField  F::squared *)
Definition f_squared : func := mkfunc ["self"] [
    (*1172*) "out" <- "self";
    (*1174*) SCall [] "F::square" [AMut "out"] ]
    [EVar "out"].

(* src/field/mod_e221_3.rs:1179-1195  PrimeField  F::invert *)
Definition f_invert : func := mkfunc ["self"] [
    (*1181*) "sqval" <- "self";
    (*1184*) SCall [] "F::square" [AMut "sqval"];
    (*1185*) SCall [] "F::mul_assign(&F)" [AMut "self"; AVal "sqval"];
    (*1188*) SCall [] "F::square" [AMut "sqval"];
    (*1191*) SFor "_" #3 #221 [
      (*1192*) SCall [] "F::square" [AMut "sqval"];
      (*1193*) SCall [] "F::mul_assign(&F)" [AMut "self"; AVal "sqval"] ] ]
    [].

(* src/field/mod_e221_3.rs:1197-1203  PrimeField  F::inverted *)
Definition f_inverted : func := mkfunc ["self"] [
    (*1198*) "out" <- "self";
    (*1200*) SCall [] "F::invert" [AMut "out"] ]
    [EVar "out"].

(* src/field/mod_e221_3.rs:1205-1219  PrimeField  F::legendre *)
Definition f_legendre : func := mkfunc ["self"] [
    (*1209*) SCall ["out"] "F::squared" [AVal "self"];
    (*1210*) "sqval" <- "out";
    (*1213*) SFor "_" #2 #220 [
      (*1214*) SCall [] "F::square" [AMut "sqval"];
      (*1215*) SCall [] "F::mul_assign(&F)" [AMut "out"; AVal "sqval"] ] ]
    [EVar "out"].

(* src/field/mod_e221_3.rs:1221-1239  PrimeField  F::sqrt *)
Definition f_sqrt : func := mkfunc ["self"] [
    (*1224*) "out" <- "self";
    (*1227*) SFor "_" #0 #218 [
      (*1228*) SCall [] "F::square" [AMut "out"] ];
    (*1231*) SCall ["coeff"] "F::quartic_legendre" [AVal "self"];
    (*1233*) SCall [] "F::sub_assign(&F)" [AMut "coeff"; AVal (ELit ONE)];
    (*1234*) SCall [] "F::mul_assign(&F)" [AMut "coeff"; AVal (ELit M_HALF)];
    (*1235*) SCall [] "F::mul_assign(&F)" [AMut "coeff"; AVal (ELit COEFF)];
    (*1236*) SCall [] "F::add_assign(&F)" [AMut "coeff"; AVal (ELit ONE)];
    (*1238*) SCall ["%2"] "(&F)::mul(&F)" [AVal "out"; AVal "coeff"] ]
    [EVar "%2"].

(* src/field/mod_e221_3.rs:1241-1262  PrimeField  F::small_add_assign *)
Definition f_small_add_assign : func := mkfunc ["self"; "rhs"] [
    (*1242*) "a0" <- "self".[#0];
    (*1243*) "a1" <- "self".[#1];
    (*1244*) "a2" <- "self".[#2];
    (*1245*) "a3" <- ("self".[#3]) .& #0x00007fffffffffff;
    (*1247*) "b" <- ECast I64 "rhs";
    (*1249*) "cin" <- carry_out "self";
    (*1250*) "s0" <- ("a0" .+ "b") .+ ("cin" .* (EInt C_VAL));
    (*1251*) "c0" <- "s0" .>> #58;
    (*1252*) "s1" <- "a1" .+ "c0";
    (*1253*) "c1" <- "s1" .>> #58;
    (*1254*) "s2" <- "a2" .+ "c1";
    (*1255*) "c2" <- "s2" .>> #58;
    (*1256*) "s3" <- "a3" .+ "c2";
    (*1258*) SSet "self" #0 ("s0" .& #0x03ffffffffffffff);
    (*1259*) SSet "self" #1 ("s1" .& #0x03ffffffffffffff);
    (*1260*) SSet "self" #2 ("s2" .& #0x03ffffffffffffff);
    (*1261*) SSet "self" #3 ("s3") ]
    [].

(* src/field/mod_e221_3.rs:1264-1270  PrimeField  F::small_add *)
Definition f_small_add : func := mkfunc ["self"; "rhs"] [
    (*1265*) "out" <- "self";
    (*1267*) SCall [] "F::small_add_assign" [AMut "out"; AVal "rhs"] ]
    [EVar "out"].

(* src/field/mod_e221_3.rs:1272-1293  PrimeField  F::small_sub_assign *)
Definition f_small_sub_assign : func := mkfunc ["self"; "rhs"] [
    (*1273*) "a0" <- "self".[#0];
    (*1274*) "a1" <- "self".[#1];
    (*1275*) "a2" <- "self".[#2];
    (*1276*) "a3" <- ("self".[#3]) .& #0x00007fffffffffff;
    (*1278*) "b" <- ECast I64 "rhs";
    (*1280*) "cin" <- carry_out "self";
    (*1281*) "s0" <- ("a0" .- "b") .+ ("cin" .* (EInt C_VAL));
    (*1282*) "c0" <- "s0" .>> #58;
    (*1283*) "s1" <- "a1" .+ "c0";
    (*1284*) "c1" <- "s1" .>> #58;
    (*1285*) "s2" <- "a2" .+ "c1";
    (*1286*) "c2" <- "s2" .>> #58;
    (*1287*) "s3" <- "a3" .+ "c2";
    (*1289*) SSet "self" #0 ("s0" .& #0x03ffffffffffffff);
    (*1290*) SSet "self" #1 ("s1" .& #0x03ffffffffffffff);
    (*1291*) SSet "self" #2 ("s2" .& #0x03ffffffffffffff);
    (*1292*) SSet "self" #3 ("s3") ]
    [].

(* src/field/mod_e221_3.rs:1295-1301  PrimeField  F::small_sub *)
Definition f_small_sub : func := mkfunc ["self"; "rhs"] [
    (*1296*) "out" <- "self";
    (*1298*) SCall [] "F::small_sub_assign" [AMut "out"; AVal "rhs"] ]
    [EVar "out"].

(* src/field/mod_e221_3.rs:1303-1337  PrimeField  F::small_mul_assign *)
Definition f_small_mul_assign : func := mkfunc ["self"; "rhs"] [
    (*1304*) "a0" <- ("self".[#0]) .& #0x1fffffff;
    (*1305*) "a1" <- ("self".[#0]) .>> #29;
    (*1306*) "a2" <- ("self".[#1]) .& #0x1fffffff;
    (*1307*) "a3" <- ("self".[#1]) .>> #29;
    (*1308*) "a4" <- ("self".[#2]) .& #0x1fffffff;
    (*1309*) "a5" <- ("self".[#2]) .>> #29;
    (*1310*) "a6" <- ("self".[#3]) .& #0x1fffffff;
    (*1311*) "a7" <- ("self".[#3]) .>> #29;
    (*1313*) "b" <- ECast I64 "rhs";
    (*1315*) "m0" <- "a0" .* "b";
    (*1316*) "m1" <- "a1" .* "b";
    (*1317*) "m2" <- "a2" .* "b";
    (*1318*) "m3" <- "a3" .* "b";
    (*1319*) "m4" <- "a4" .* "b";
    (*1320*) "m5" <- "a5" .* "b";
    (*1321*) "m6" <- "a6" .* "b";
    (*1322*) "m7" <- "a7" .* "b";
    (*1324*) "cin" <- carry_out "self";
    (*1325*) "d0" <- ("m0" .+ (("m1" .& #0x1fffffff) .<< #29)) .+ ("cin" .* (EInt C_VAL));
    (*1326*) "c0" <- "d0" .>> #58;
    (*1327*) "d1" <- ((("m1" .>> #29) .+ "m2") .+ (("m3" .& #0x1fffffff) .<< #29)) .+ "c0";
    (*1328*) "c1" <- "d1" .>> #58;
    (*1329*) "d2" <- ((("m3" .>> #29) .+ "m4") .+ (("m5" .& #0x1fffffff) .<< #29)) .+ "c1";
    (*1330*) "c2" <- "d2" .>> #58;
    (*1331*) "d3" <- ((("m5" .>> #29) .+ "m6") .+ ("m7" .<< #29)) .+ "c2";
    (*1333*) SSet "self" #0 ("d0" .& #0x03ffffffffffffff);
    (*1334*) SSet "self" #1 ("d1" .& #0x03ffffffffffffff);
    (*1335*) SSet "self" #2 ("d2" .& #0x03ffffffffffffff);
    (*1336*) SSet "self" #3 ("d3") ]
    [].

(* src/field/mod_e221_3.rs:1339-1345  PrimeField  F::small_mul *)
Definition f_small_mul : func := mkfunc ["self"; "b"] [
    (*1340*) "out" <- "self";
    (*1342*) SCall [] "F::small_mul_assign" [AMut "out"; AVal "b"] ]
    [EVar "out"].

(* the function table of this file: every non-test function *)
Definition table : list (string * func) := [
  ("F::Debug::fmt", f_Debug_fmt);
  ("F::LowerHex::fmt", f_LowerHex_fmt);
  ("F::UpperHex::fmt", f_UpperHex_fmt);
  ("F::packed", f_packed);
  ("F::quartic_legendre", f_quartic_legendre);
  ("F::neg", f_neg);
  ("F::add_assign(&F)", f_add_assign_ref);
  ("F::add_assign(F)", f_add_assign_val);
  ("F::add_assign(i32)", f_add_assign_i32);
  ("F::add_assign(i16)", f_add_assign_i16);
  ("F::add_assign(i8)", f_add_assign_i8);
  ("(&F)::add(&F)", f_ref_add_ref);
  ("F::add(F)", f_add_val);
  ("i32::add(&F)", f_i32_add_ref);
  ("i16::add(&F)", f_i16_add_ref);
  ("i8::add(&F)", f_i8_add_ref);
  ("(&F)::add(i32)", f_ref_add_i32);
  ("(&F)::add(i16)", f_ref_add_i16);
  ("(&F)::add(i8)", f_ref_add_i8);
  ("F::add(i32)", f_add_i32);
  ("F::add(i16)", f_add_i16);
  ("F::add(i8)", f_add_i8);
  ("F::div_assign(&F)", f_div_assign_ref);
  ("F::div_assign(F)", f_div_assign_val);
  ("(&F)::div(&F)", f_ref_div_ref);
  ("F::div(F)", f_div_val);
  ("F::sub_assign(i32)", f_sub_assign_i32);
  ("F::sub_assign(i16)", f_sub_assign_i16);
  ("F::sub_assign(i8)", f_sub_assign_i8);
  ("F::sub_assign(&F)", f_sub_assign_ref);
  ("F::sub_assign(F)", f_sub_assign_val);
  ("(&F)::sub(i32)", f_ref_sub_i32);
  ("(&F)::sub(i16)", f_ref_sub_i16);
  ("(&F)::sub(i8)", f_ref_sub_i8);
  ("F::sub(i32)", f_sub_i32);
  ("F::sub(i16)", f_sub_i16);
  ("F::sub(i8)", f_sub_i8);
  ("(&F)::sub(&F)", f_ref_sub_ref);
  ("F::sub(F)", f_sub_val);
  ("F::mul_assign(i32)", f_mul_assign_i32);
  ("F::mul_assign(i16)", f_mul_assign_i16);
  ("F::mul_assign(i8)", f_mul_assign_i8);
  ("F::mul_assign(&F)", f_mul_assign_ref);
  ("F::mul_assign(F)", f_mul_assign_val);
  ("i32::mul(&F)", f_i32_mul_ref);
  ("i16::mul(&F)", f_i16_mul_ref);
  ("i8::mul(&F)", f_i8_mul_ref);
  ("(&F)::mul(i32)", f_ref_mul_i32);
  ("(&F)::mul(i16)", f_ref_mul_i16);
  ("(&F)::mul(i8)", f_ref_mul_i8);
  ("F::mul(i32)", f_mul_i32);
  ("F::mul(i16)", f_mul_i16);
  ("F::mul(i8)", f_mul_i8);
  ("(&F)::mul(&F)", f_ref_mul_ref);
  ("F::mul(F)", f_mul_val);
  ("F::rand", f_rand);
  ("F::unpack", f_unpack);
  ("F::unpacked", f_unpacked);
  ("F::pack", f_pack);
  ("F::pack_normalized", f_pack_normalized);
  ("F::nbytes", f_nbytes);
  ("F::normalize", f_normalize);
  ("F::normalize_self_eq", f_normalize_self_eq);
  ("F::normalize_eq", f_normalize_eq);
  ("Mask::fill", f_Mask_fill);
  ("Mask::filled", f_Mask_filled);
  ("F::fill", f_fill);
  ("F::filled", f_filled);
  ("F::nbits", f_nbits);
  ("F::bit_normalized", f_bit_normalized);
  ("F::bit", f_bit);
  ("F::normalize_bitand", f_normalize_bitand);
  ("F::normalize_self_bitand", f_normalize_self_bitand);
  ("F::normalized_bitand", f_normalized_bitand);
  ("F::normalize_bitor", f_normalize_bitor);
  ("F::normalize_self_bitor", f_normalize_self_bitor);
  ("F::normalized_bitor", f_normalized_bitor);
  ("F::zero", f_zero);
  ("F::one", f_one);
  ("F::m_one", f_m_one);
  ("F::modulus", f_modulus);
  ("F::square", f_square);
  ("F::squared", f_squared);
  ("F::invert", f_invert);
  ("F::inverted", f_inverted);
  ("F::legendre", f_legendre);
  ("F::sqrt", f_sqrt);
  ("F::small_add_assign", f_small_add_assign);
  ("F::small_add", f_small_add);
  ("F::small_sub_assign", f_small_sub_assign);
  ("F::small_sub", f_small_sub);
  ("F::small_mul_assign", f_small_mul_assign);
  ("F::small_mul", f_small_mul)].
