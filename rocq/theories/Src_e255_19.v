(* Generated by tools/rust2coq.py from src/field/mod_e255_19.rs -- do not edit.
   One definition per item; each statement is preceded by its source line. *)
From Coq Require Import ZArith List String.
From Verif Require Import Lang.
Import ListNotations LangNotations.
Local Open Scope Z_scope.
Local Open Scope string_scope.

(* src/field/mod_e255_19.rs:41 *)
Definition C_VAL : Z := 19.

(* src/field/mod_e255_19.rs:44-44 *)
Definition ZERO : list Z := [0; 0; 0; 0; 0].

(* src/field/mod_e255_19.rs:47-47 *)
Definition ONE : list Z := [1; 0; 0; 0; 0].

(* src/field/mod_e255_19.rs:50-53 *)
Definition M_ONE : list Z := [0x00ffffffffffffec; 0x00ffffffffffffff; 0x00ffffffffffffff; 0x00ffffffffffffff; 0x000000007fffffff].

(* src/field/mod_e255_19.rs:56-59 *)
Definition MODULUS : list Z := [0x00ffffffffffffed; 0x00ffffffffffffff; 0x00ffffffffffffff; 0x00ffffffffffffff; 0x000000007fffffff].

(* src/field/mod_e255_19.rs:62-65 *)
Definition M_HALF : list Z := [0x00fffffffffffff6; 0x00ffffffffffffff; 0x00ffffffffffffff; 0x00ffffffffffffff; 0x000000003fffffff].

(* src/field/mod_e255_19.rs:67-70 *)
Definition COEFF : list Z := [0x00ee1b274a0ea0af; 0x001806ad2fe478c4; 0x00993dfbd7a72f43; 0x004fc1df0b2b4d00; 0x000000002b832480].

(* src/field/mod_e255_19.rs:73-73 *)
Definition CURVE25519_BASE_X : list Z := [0x9; 0; 0; 0; 0].

(* src/field/mod_e255_19.rs:77-80 *)
Definition CURVE25519_BASE_Y : list Z := [0x00e9c5a27eced3d9; 0x004d7e6d7c61b229; 0x002c7748d14c923d; 0x00b8a086b4e01edd; 0x0000000020ae19a1].

(* src/field/mod_e255_19.rs:84-87 *)
Definition CURVE25519_ORDER : list Z := [0x0012631a5cf5d3ed; 0x00f9dea2f79cd658; 0x00000000000014de; 0x0000000000000000; 0x0000000010000000].

(* src/field/mod_e255_19.rs:131-133  inherent F::carry_out (one-line method, kept as a macro on its receiver) *)
Definition carry_out (self : expr) : expr := self.[#4] .>> #31.

(* src/field/mod_e255_19.rs:90-98  Debug  F::Debug::fmt *)
Definition f_Debug_fmt : func := mkfunc ["self"; "f"] [
    (*91*) SPushStr "f" "Mod_e255_19: [ ";
    (*91*) SPushHex "f" false false 64 ("self".[#0]);
    (*93*) SFor "i" #1 #5 [
      (*94*) SPushStr "f" ", ";
      (*94*) SPushHex "f" false false 64 ("self".["i"]) ];
    (*97*) SPushStr "f" " ]" ]
    [].

(* src/field/mod_e255_19.rs:102-111  LowerHex  F::LowerHex::fmt *)
Definition f_LowerHex_fmt : func := mkfunc ["self"; "f"] [
    (*103*) "cpy" <- "self";
    (*104*) SCall ["bytes"] "F::packed" [AMut "cpy"];
    (*106*) SFor "i" #0 #32 [
      (*107*) SPushHex "f" false true 8 ("bytes".[EUSub #31 "i"]) ] ]
    [].

(* src/field/mod_e255_19.rs:115-124  UpperHex  F::UpperHex::fmt *)
Definition f_UpperHex_fmt : func := mkfunc ["self"; "f"] [
    (*116*) "cpy" <- "self";
    (*117*) SCall ["bytes"] "F::packed" [AMut "cpy"];
    (*119*) SFor "i" #0 #32 [
      (*120*) SPushHex "f" true true 8 ("bytes".[EUSub #31 "i"]) ] ]
    [].

(* src/field/mod_e255_19.rs:137-141  inherent  F::packed *)
Definition f_packed : func := mkfunc ["self"] [
    (*138*) "out" <- ERep #0 32;
    (*139*) SCall [] "F::pack" [AMut "self"; AMut "out"] ]
    [EVar "out"].

(* src/field/mod_e255_19.rs:143-162  inherent  F::quartic_legendre *)
Definition f_quartic_legendre : func := mkfunc ["self"] [
    (*145*) "sqval" <- "self";
    (*146*) "out" <- "self";
    (*149*) SCall [] "F::square" [AMut "sqval"];
    (*150*) SCall [] "F::mul_assign(&F)" [AMut "out"; AVal "sqval"];
    (*153*) SCall [] "F::square" [AMut "sqval"];
    (*156*) SFor "_" #3 #253 [
      (*157*) SCall [] "F::square" [AMut "sqval"];
      (*158*) SCall [] "F::mul_assign(&F)" [AMut "out"; AVal "sqval"] ] ]
    [EVar "out"].

(* src/field/mod_e255_19.rs:168-173  Neg  F::neg *)
Definition f_neg : func := mkfunc ["self"] [
    (*169*) "out" <- "self";
    (*171*) SCall [] "F::add_assign(&F)" [AMut "out"; AVal (ELit MODULUS)] ]
    [EVar "out"].

(* src/field/mod_e255_19.rs:177-206  AddAssign<&F>  F::add_assign(&F) *)
Definition f_add_assign_ref : func := mkfunc ["self"; "rhs"] [
    (*178*) "a0" <- "self".[#0];
    (*179*) "a1" <- "self".[#1];
    (*180*) "a2" <- "self".[#2];
    (*181*) "a3" <- "self".[#3];
    (*182*) "a4" <- ("self".[#4]) .& #0x000000007fffffff;
    (*184*) "b0" <- "rhs".[#0];
    (*185*) "b1" <- "rhs".[#1];
    (*186*) "b2" <- "rhs".[#2];
    (*187*) "b3" <- "rhs".[#3];
    (*188*) "b4" <- ("rhs".[#4]) .& #0x000000007fffffff;
    (*190*) "cin" <- (carry_out "self") .+ (carry_out "rhs");
    (*191*) "s0" <- ("a0" .+ "b0") .+ ("cin" .* (EInt C_VAL));
    (*192*) "c0" <- "s0" .>> #56;
    (*193*) "s1" <- ("a1" .+ "b1") .+ "c0";
    (*194*) "c1" <- "s1" .>> #56;
    (*195*) "s2" <- ("a2" .+ "b2") .+ "c1";
    (*196*) "c2" <- "s2" .>> #56;
    (*197*) "s3" <- ("a3" .+ "b3") .+ "c2";
    (*198*) "c3" <- "s3" .>> #56;
    (*199*) "s4" <- ("a4" .+ "b4") .+ "c3";
    (*201*) SSet "self" #0 ("s0" .& #0x00ffffffffffffff);
    (*202*) SSet "self" #1 ("s1" .& #0x00ffffffffffffff);
    (*203*) SSet "self" #2 ("s2" .& #0x00ffffffffffffff);
    (*204*) SSet "self" #3 ("s3" .& #0x00ffffffffffffff);
    (*205*) SSet "self" #4 ("s4") ]
    [].

(* src/field/mod_e255_19.rs:210-212  AddAssign<F>  F::add_assign(F) *)
Definition f_add_assign_val : func := mkfunc ["self"; "rhs"] [
    (*211*) SCall [] "F::add_assign(&F)" [AMut "self"; AVal "rhs"] ]
    [].

(* src/field/mod_e255_19.rs:216-218  AddAssign<i32>  F::add_assign(i32) *)
Definition f_add_assign_i32 : func := mkfunc ["self"; "rhs"] [
    (*217*) SCall [] "F::small_add_assign" [AMut "self"; AVal "rhs"] ]
    [].

(* src/field/mod_e255_19.rs:222-224  AddAssign<i16>  F::add_assign(i16) *)
Definition f_add_assign_i16 : func := mkfunc ["self"; "rhs"] [
    (*223*) SCall [] "F::small_add_assign" [AMut "self"; AVal (ECast I32 "rhs")] ]
    [].

(* src/field/mod_e255_19.rs:228-230  AddAssign<i8>  F::add_assign(i8) *)
Definition f_add_assign_i8 : func := mkfunc ["self"; "rhs"] [
    (*229*) SCall [] "F::small_add_assign" [AMut "self"; AVal (ECast I32 "rhs")] ]
    [].

(* src/field/mod_e255_19.rs:236-240  Add<&F>  (&F)::add(&F) *)
Definition f_ref_add_ref : func := mkfunc ["self"; "a"] [
    (*237*) "out" <- "self";
    (*238*) SCall [] "F::add_assign(&F)" [AMut "out"; AVal "a"] ]
    [EVar "out"].

(* src/field/mod_e255_19.rs:246-248  Add<F>  F::add(F) *)
Definition f_add_val : func := mkfunc ["self"; "a"] [
    (*247*) SCall ["%1"] "(&F)::add(&F)" [AVal "self"; AVal "a"] ]
    [EVar "%1"].

(* src/field/mod_e255_19.rs:254-256  Add<&F>  i32::add(&F) *)
Definition f_i32_add_ref : func := mkfunc ["self"; "a"] [
    (*255*) SCall ["%1"] "F::small_add" [AVal "a"; AVal "self"] ]
    [EVar "%1"].

(* src/field/mod_e255_19.rs:262-264  Add<&F>  i16::add(&F) *)
Definition f_i16_add_ref : func := mkfunc ["self"; "a"] [
    (*263*) SCall ["%1"] "F::small_add" [AVal "a"; AVal (ECast I32 "self")] ]
    [EVar "%1"].

(* src/field/mod_e255_19.rs:270-272  Add<&F>  i8::add(&F) *)
Definition f_i8_add_ref : func := mkfunc ["self"; "a"] [
    (*271*) SCall ["%1"] "F::small_add" [AVal "a"; AVal (ECast I32 "self")] ]
    [EVar "%1"].

(* src/field/mod_e255_19.rs:278-280  Add<i32>  (&F)::add(i32) *)
Definition f_ref_add_i32 : func := mkfunc ["self"; "a"] [
    (*279*) SCall ["%1"] "F::small_add" [AVal "self"; AVal "a"] ]
    [EVar "%1"].

(* src/field/mod_e255_19.rs:286-288  Add<i16>  (&F)::add(i16) *)
Definition f_ref_add_i16 : func := mkfunc ["self"; "a"] [
    (*287*) SCall ["%1"] "F::small_add" [AVal "self"; AVal (ECast I32 "a")] ]
    [EVar "%1"].

(* src/field/mod_e255_19.rs:294-296  Add<i8>  (&F)::add(i8) *)
Definition f_ref_add_i8 : func := mkfunc ["self"; "a"] [
    (*295*) SCall ["%1"] "F::small_add" [AVal "self"; AVal (ECast I32 "a")] ]
    [EVar "%1"].

(* src/field/mod_e255_19.rs:302-304  Add<i32>  F::add(i32) *)
Definition f_add_i32 : func := mkfunc ["self"; "a"] [
    (*303*) SCall ["%1"] "(&F)::add(i32)" [AVal "self"; AVal "a"] ]
    [EVar "%1"].

(* src/field/mod_e255_19.rs:310-312  Add<i16>  F::add(i16) *)
Definition f_add_i16 : func := mkfunc ["self"; "a"] [
    (*311*) SCall ["%1"] "(&F)::add(i16)" [AVal "self"; AVal "a"] ]
    [EVar "%1"].

(* src/field/mod_e255_19.rs:318-320  Add<i8>  F::add(i8) *)
Definition f_add_i8 : func := mkfunc ["self"; "a"] [
    (*319*) SCall ["%1"] "(&F)::add(i8)" [AVal "self"; AVal "a"] ]
    [EVar "%1"].

(* src/field/mod_e255_19.rs:324-326  DivAssign<&F>  F::div_assign(&F) *)
Definition f_div_assign_ref : func := mkfunc ["self"; "rhs"] [
    (*325*) SCall ["%1"] "F::inverted" [AVal "rhs"];
    (*325*) SCall [] "F::mul_assign(&F)" [AMut "self"; AVal "%1"] ]
    [].

(* src/field/mod_e255_19.rs:330-332  DivAssign<F>  F::div_assign(F) *)
Definition f_div_assign_val : func := mkfunc ["self"; "rhs"] [
    (*331*) SCall [] "F::div_assign(&F)" [AMut "self"; AVal "rhs"] ]
    [].

(* src/field/mod_e255_19.rs:338-342  Div<&F>  (&F)::div(&F) *)
Definition f_ref_div_ref : func := mkfunc ["self"; "a"] [
    (*339*) "out" <- "self";
    (*340*) SCall [] "F::div_assign(&F)" [AMut "out"; AVal "a"] ]
    [EVar "out"].

(* src/field/mod_e255_19.rs:348-350  Div<F>  F::div(F) *)
Definition f_div_val : func := mkfunc ["self"; "a"] [
    (*349*) SCall ["%1"] "(&F)::div(&F)" [AVal "self"; AVal "a"] ]
    [EVar "%1"].

(* src/field/mod_e255_19.rs:354-383  SubAssign<&F>  F::sub_assign(&F) *)
Definition f_sub_assign_ref : func := mkfunc ["self"; "rhs"] [
    (*355*) "a0" <- "self".[#0];
    (*356*) "a1" <- "self".[#1];
    (*357*) "a2" <- "self".[#2];
    (*358*) "a3" <- "self".[#3];
    (*359*) "a4" <- ("self".[#4]) .& #0x000000007fffffff;
    (*361*) "b0" <- "rhs".[#0];
    (*362*) "b1" <- "rhs".[#1];
    (*363*) "b2" <- "rhs".[#2];
    (*364*) "b3" <- "rhs".[#3];
    (*365*) "b4" <- ("rhs".[#4]) .& #0x000000007fffffff;
    (*367*) "cin" <- (carry_out "self") .+ (carry_out "rhs");
    (*368*) "s0" <- ("a0" .- "b0") .+ ("cin" .* (EInt C_VAL));
    (*369*) "c0" <- "s0" .>> #56;
    (*370*) "s1" <- ("a1" .- "b1") .+ "c0";
    (*371*) "c1" <- "s1" .>> #56;
    (*372*) "s2" <- ("a2" .- "b2") .+ "c1";
    (*373*) "c2" <- "s2" .>> #56;
    (*374*) "s3" <- ("a3" .- "b3") .+ "c2";
    (*375*) "c3" <- "s3" .>> #56;
    (*376*) "s4" <- ("a4" .- "b4") .+ "c3";
    (*378*) SSet "self" #0 ("s0" .& #0x00ffffffffffffff);
    (*379*) SSet "self" #1 ("s1" .& #0x00ffffffffffffff);
    (*380*) SSet "self" #2 ("s2" .& #0x00ffffffffffffff);
    (*381*) SSet "self" #3 ("s3" .& #0x00ffffffffffffff);
    (*382*) SSet "self" #4 ("s4") ]
    [].

(* src/field/mod_e255_19.rs:387-389  SubAssign<F>  F::sub_assign(F) *)
Definition f_sub_assign_val : func := mkfunc ["self"; "rhs"] [
    (*388*) SCall [] "F::sub_assign(&F)" [AMut "self"; AVal "rhs"] ]
    [].

(* src/field/mod_e255_19.rs:393-395  SubAssign<i32>  F::sub_assign(i32) *)
Definition f_sub_assign_i32 : func := mkfunc ["self"; "rhs"] [
    (*394*) SCall [] "F::small_sub_assign" [AMut "self"; AVal "rhs"] ]
    [].

(* src/field/mod_e255_19.rs:399-401  SubAssign<i16>  F::sub_assign(i16) *)
Definition f_sub_assign_i16 : func := mkfunc ["self"; "rhs"] [
    (*400*) SCall [] "F::small_sub_assign" [AMut "self"; AVal (ECast I32 "rhs")] ]
    [].

(* src/field/mod_e255_19.rs:405-407  SubAssign<i8>  F::sub_assign(i8) *)
Definition f_sub_assign_i8 : func := mkfunc ["self"; "rhs"] [
    (*406*) SCall [] "F::small_sub_assign" [AMut "self"; AVal (ECast I32 "rhs")] ]
    [].

(* src/field/mod_e255_19.rs:413-415  Sub<i32>  F::sub(i32) *)
Definition f_sub_i32 : func := mkfunc ["self"; "a"] [
    (*414*) SCall ["%1"] "(&F)::sub(i32)" [AVal "self"; AVal "a"] ]
    [EVar "%1"].

(* src/field/mod_e255_19.rs:421-423  Sub<i16>  F::sub(i16) *)
Definition f_sub_i16 : func := mkfunc ["self"; "a"] [
    (*422*) SCall ["%1"] "(&F)::sub(i16)" [AVal "self"; AVal "a"] ]
    [EVar "%1"].

(* src/field/mod_e255_19.rs:429-431  Sub<i8>  F::sub(i8) *)
Definition f_sub_i8 : func := mkfunc ["self"; "a"] [
    (*430*) SCall ["%1"] "(&F)::sub(i8)" [AVal "self"; AVal "a"] ]
    [EVar "%1"].

(* src/field/mod_e255_19.rs:437-441  Sub<&F>  (&F)::sub(&F) *)
Definition f_ref_sub_ref : func := mkfunc ["self"; "a"] [
    (*438*) "out" <- "self";
    (*439*) SCall [] "F::sub_assign(&F)" [AMut "out"; AVal "a"] ]
    [EVar "out"].

(* src/field/mod_e255_19.rs:447-449  Sub<F>  F::sub(F) *)
Definition f_sub_val : func := mkfunc ["self"; "a"] [
    (*448*) SCall ["%1"] "(&F)::sub(&F)" [AVal "self"; AVal "a"] ]
    [EVar "%1"].

(* src/field/mod_e255_19.rs:455-457  Sub<i32>  (&F)::sub(i32) *)
Definition f_ref_sub_i32 : func := mkfunc ["self"; "a"] [
    (*456*) SCall ["%1"] "F::small_sub" [AVal "self"; AVal "a"] ]
    [EVar "%1"].

(* src/field/mod_e255_19.rs:463-465  Sub<i16>  (&F)::sub(i16) *)
Definition f_ref_sub_i16 : func := mkfunc ["self"; "a"] [
    (*464*) SCall ["%1"] "F::small_sub" [AVal "self"; AVal (ECast I32 "a")] ]
    [EVar "%1"].

(* src/field/mod_e255_19.rs:471-473  Sub<i8>  (&F)::sub(i8) *)
Definition f_ref_sub_i8 : func := mkfunc ["self"; "a"] [
    (*472*) SCall ["%1"] "F::small_sub" [AVal "self"; AVal (ECast I32 "a")] ]
    [EVar "%1"].

(* src/field/mod_e255_19.rs:477-479  MulAssign<i32>  F::mul_assign(i32) *)
Definition f_mul_assign_i32 : func := mkfunc ["self"; "rhs"] [
    (*478*) SCall [] "F::small_mul_assign" [AMut "self"; AVal "rhs"] ]
    [].

(* src/field/mod_e255_19.rs:483-485  MulAssign<i16>  F::mul_assign(i16) *)
Definition f_mul_assign_i16 : func := mkfunc ["self"; "rhs"] [
    (*484*) SCall [] "F::small_mul_assign" [AMut "self"; AVal (ECast I32 "rhs")] ]
    [].

(* src/field/mod_e255_19.rs:489-491  MulAssign<i8>  F::mul_assign(i8) *)
Definition f_mul_assign_i8 : func := mkfunc ["self"; "rhs"] [
    (*490*) SCall [] "F::small_mul_assign" [AMut "self"; AVal (ECast I32 "rhs")] ]
    [].

(* src/field/mod_e255_19.rs:495-738  MulAssign<&F>  F::mul_assign(&F) *)
Definition f_mul_assign_ref : func := mkfunc ["self"; "rhs"] [
    (*496*) "a0" <- ("self".[#0]) .& #0x0fffffff;
    (*497*) "a1" <- ("self".[#0]) .>> #28;
    (*498*) "a2" <- ("self".[#1]) .& #0x0fffffff;
    (*499*) "a3" <- ("self".[#1]) .>> #28;
    (*500*) "a4" <- ("self".[#2]) .& #0x0fffffff;
    (*501*) "a5" <- ("self".[#2]) .>> #28;
    (*502*) "a6" <- ("self".[#3]) .& #0x0fffffff;
    (*503*) "a7" <- ("self".[#3]) .>> #28;
    (*504*) "a8" <- ("self".[#4]) .& #0x0fffffff;
    (*505*) "a9" <- ("self".[#4]) .>> #28;
    (*507*) "b0" <- ("rhs".[#0]) .& #0x0fffffff;
    (*508*) "b1" <- ("rhs".[#0]) .>> #28;
    (*509*) "b2" <- ("rhs".[#1]) .& #0x0fffffff;
    (*510*) "b3" <- ("rhs".[#1]) .>> #28;
    (*511*) "b4" <- ("rhs".[#2]) .& #0x0fffffff;
    (*512*) "b5" <- ("rhs".[#2]) .>> #28;
    (*513*) "b6" <- ("rhs".[#3]) .& #0x0fffffff;
    (*514*) "b7" <- ("rhs".[#3]) .>> #28;
    (*515*) "b8" <- ("rhs".[#4]) .& #0x0fffffff;
    (*516*) "b9" <- ("rhs".[#4]) .>> #28;
    (*519*) "m_0_0" <- "a0" .* "b0";
    (*520*) "m_0_1" <- "a0" .* "b1";
    (*521*) "m_0_2" <- "a0" .* "b2";
    (*522*) "m_0_3" <- "a0" .* "b3";
    (*523*) "m_0_4" <- "a0" .* "b4";
    (*524*) "m_0_5" <- "a0" .* "b5";
    (*525*) "m_0_6" <- "a0" .* "b6";
    (*526*) "m_0_7" <- "a0" .* "b7";
    (*527*) "m_0_8" <- "a0" .* "b8";
    (*528*) "m_0_9" <- "a0" .* "b9";
    (*529*) "m_1_0" <- "a1" .* "b0";
    (*530*) "m_1_1" <- "a1" .* "b1";
    (*531*) "m_1_2" <- "a1" .* "b2";
    (*532*) "m_1_3" <- "a1" .* "b3";
    (*533*) "m_1_4" <- "a1" .* "b4";
    (*534*) "m_1_5" <- "a1" .* "b5";
    (*535*) "m_1_6" <- "a1" .* "b6";
    (*536*) "m_1_7" <- "a1" .* "b7";
    (*537*) "m_1_8" <- "a1" .* "b8";
    (*538*) "m_1_9" <- "a1" .* "b9";
    (*539*) "m_2_0" <- "a2" .* "b0";
    (*540*) "m_2_1" <- "a2" .* "b1";
    (*541*) "m_2_2" <- "a2" .* "b2";
    (*542*) "m_2_3" <- "a2" .* "b3";
    (*543*) "m_2_4" <- "a2" .* "b4";
    (*544*) "m_2_5" <- "a2" .* "b5";
    (*545*) "m_2_6" <- "a2" .* "b6";
    (*546*) "m_2_7" <- "a2" .* "b7";
    (*547*) "m_2_8" <- "a2" .* "b8";
    (*548*) "m_2_9" <- "a2" .* "b9";
    (*549*) "m_3_0" <- "a3" .* "b0";
    (*550*) "m_3_1" <- "a3" .* "b1";
    (*551*) "m_3_2" <- "a3" .* "b2";
    (*552*) "m_3_3" <- "a3" .* "b3";
    (*553*) "m_3_4" <- "a3" .* "b4";
    (*554*) "m_3_5" <- "a3" .* "b5";
    (*555*) "m_3_6" <- "a3" .* "b6";
    (*556*) "m_3_7" <- "a3" .* "b7";
    (*557*) "m_3_8" <- "a3" .* "b8";
    (*558*) "m_3_9" <- "a3" .* "b9";
    (*559*) "m_4_0" <- "a4" .* "b0";
    (*560*) "m_4_1" <- "a4" .* "b1";
    (*561*) "m_4_2" <- "a4" .* "b2";
    (*562*) "m_4_3" <- "a4" .* "b3";
    (*563*) "m_4_4" <- "a4" .* "b4";
    (*564*) "m_4_5" <- "a4" .* "b5";
    (*565*) "m_4_6" <- "a4" .* "b6";
    (*566*) "m_4_7" <- "a4" .* "b7";
    (*567*) "m_4_8" <- "a4" .* "b8";
    (*568*) "m_4_9" <- "a4" .* "b9";
    (*569*) "m_5_0" <- "a5" .* "b0";
    (*570*) "m_5_1" <- "a5" .* "b1";
    (*571*) "m_5_2" <- "a5" .* "b2";
    (*572*) "m_5_3" <- "a5" .* "b3";
    (*573*) "m_5_4" <- "a5" .* "b4";
    (*574*) "m_5_5" <- "a5" .* "b5";
    (*575*) "m_5_6" <- "a5" .* "b6";
    (*576*) "m_5_7" <- "a5" .* "b7";
    (*577*) "m_5_8" <- "a5" .* "b8";
    (*578*) "m_5_9" <- "a5" .* "b9";
    (*579*) "m_6_0" <- "a6" .* "b0";
    (*580*) "m_6_1" <- "a6" .* "b1";
    (*581*) "m_6_2" <- "a6" .* "b2";
    (*582*) "m_6_3" <- "a6" .* "b3";
    (*583*) "m_6_4" <- "a6" .* "b4";
    (*584*) "m_6_5" <- "a6" .* "b5";
    (*585*) "m_6_6" <- "a6" .* "b6";
    (*586*) "m_6_7" <- "a6" .* "b7";
    (*587*) "m_6_8" <- "a6" .* "b8";
    (*588*) "m_6_9" <- "a6" .* "b9";
    (*589*) "m_7_0" <- "a7" .* "b0";
    (*590*) "m_7_1" <- "a7" .* "b1";
    (*591*) "m_7_2" <- "a7" .* "b2";
    (*592*) "m_7_3" <- "a7" .* "b3";
    (*593*) "m_7_4" <- "a7" .* "b4";
    (*594*) "m_7_5" <- "a7" .* "b5";
    (*595*) "m_7_6" <- "a7" .* "b6";
    (*596*) "m_7_7" <- "a7" .* "b7";
    (*597*) "m_7_8" <- "a7" .* "b8";
    (*598*) "m_7_9" <- "a7" .* "b9";
    (*599*) "m_8_0" <- "a8" .* "b0";
    (*600*) "m_8_1" <- "a8" .* "b1";
    (*601*) "m_8_2" <- "a8" .* "b2";
    (*602*) "m_8_3" <- "a8" .* "b3";
    (*603*) "m_8_4" <- "a8" .* "b4";
    (*604*) "m_8_5" <- "a8" .* "b5";
    (*605*) "m_8_6" <- "a8" .* "b6";
    (*606*) "m_8_7" <- "a8" .* "b7";
    (*607*) "m_8_8" <- "a8" .* "b8";
    (*608*) "m_8_9" <- "a8" .* "b9";
    (*609*) "m_9_0" <- "a9" .* "b0";
    (*610*) "m_9_1" <- "a9" .* "b1";
    (*611*) "m_9_2" <- "a9" .* "b2";
    (*612*) "m_9_3" <- "a9" .* "b3";
    (*613*) "m_9_4" <- "a9" .* "b4";
    (*614*) "m_9_5" <- "a9" .* "b5";
    (*615*) "m_9_6" <- "a9" .* "b6";
    (*616*) "m_9_7" <- "a9" .* "b7";
    (*617*) "m_9_8" <- "a9" .* "b8";
    (*618*) "m_9_9" <- "a9" .* "b9";
    (*621*) "d0" <- ("m_0_0" .+ (("m_0_1" .& #0x0fffffff) .<< #28)) .+ (("m_1_0" .& #0x0fffffff) .<< #28);
    (*623*) "c0" <- "d0" .>> #56;
    (*624*) "d1" <- ((((((((("m_0_1" .>> #28) .+ "m_0_2") .+ (("m_0_3" .& #0x0fffffff) .<< #28)) .+ ("m_1_0" .>> #28)) .+ "m_1_1") .+ (("m_1_2" .& #0x0fffffff) .<< #28)) .+ "m_2_0") .+ (("m_2_1" .& #0x0fffffff) .<< #28)) .+ (("m_3_0" .& #0x0fffffff) .<< #28)) .+ "c0";
    (*628*) "c1" <- "d1" .>> #56;
    (*629*) "d2" <- ((((((((((((((("m_0_3" .>> #28) .+ "m_0_4") .+ (("m_0_5" .& #0x0fffffff) .<< #28)) .+ ("m_1_2" .>> #28)) .+ "m_1_3") .+ (("m_1_4" .& #0x0fffffff) .<< #28)) .+ ("m_2_1" .>> #28)) .+ "m_2_2") .+ (("m_2_3" .& #0x0fffffff) .<< #28)) .+ ("m_3_0" .>> #28)) .+ "m_3_1") .+ (("m_3_2" .& #0x0fffffff) .<< #28)) .+ "m_4_0") .+ (("m_4_1" .& #0x0fffffff) .<< #28)) .+ (("m_5_0" .& #0x0fffffff) .<< #28)) .+ "c1";
    (*635*) "c2" <- "d2" .>> #56;
    (*636*) "d3" <- ((((((((((((((((((((("m_0_5" .>> #28) .+ "m_0_6") .+ (("m_0_7" .& #0x0fffffff) .<< #28)) .+ ("m_1_4" .>> #28)) .+ "m_1_5") .+ (("m_1_6" .& #0x0fffffff) .<< #28)) .+ ("m_2_3" .>> #28)) .+ "m_2_4") .+ (("m_2_5" .& #0x0fffffff) .<< #28)) .+ ("m_3_2" .>> #28)) .+ "m_3_3") .+ (("m_3_4" .& #0x0fffffff) .<< #28)) .+ ("m_4_1" .>> #28)) .+ "m_4_2") .+ (("m_4_3" .& #0x0fffffff) .<< #28)) .+ ("m_5_0" .>> #28)) .+ "m_5_1") .+ (("m_5_2" .& #0x0fffffff) .<< #28)) .+ "m_6_0") .+ (("m_6_1" .& #0x0fffffff) .<< #28)) .+ (("m_7_0" .& #0x0fffffff) .<< #28)) .+ "c2";
    (*644*) "c3" <- "d3" .>> #56;
    (*645*) "d4" <- ((((((((((((((((((((((((((("m_0_7" .>> #28) .+ "m_0_8") .+ (("m_0_9" .& #0x0fffffff) .<< #28)) .+ ("m_1_6" .>> #28)) .+ "m_1_7") .+ (("m_1_8" .& #0x0fffffff) .<< #28)) .+ ("m_2_5" .>> #28)) .+ "m_2_6") .+ (("m_2_7" .& #0x0fffffff) .<< #28)) .+ ("m_3_4" .>> #28)) .+ "m_3_5") .+ (("m_3_6" .& #0x0fffffff) .<< #28)) .+ ("m_4_3" .>> #28)) .+ "m_4_4") .+ (("m_4_5" .& #0x0fffffff) .<< #28)) .+ ("m_5_2" .>> #28)) .+ "m_5_3") .+ (("m_5_4" .& #0x0fffffff) .<< #28)) .+ ("m_6_1" .>> #28)) .+ "m_6_2") .+ (("m_6_3" .& #0x0fffffff) .<< #28)) .+ ("m_7_0" .>> #28)) .+ "m_7_1") .+ (("m_7_2" .& #0x0fffffff) .<< #28)) .+ "m_8_0") .+ (("m_8_1" .& #0x0fffffff) .<< #28)) .+ (("m_9_0" .& #0x0fffffff) .<< #28)) .+ "c3";
    (*655*) "c4" <- "d4" .>> #56;
    (*656*) "d5" <- ((((((((((((((((((((((((((("m_0_9" .>> #28) .+ ("m_1_8" .>> #28)) .+ "m_1_9") .+ ("m_2_7" .>> #28)) .+ "m_2_8") .+ (("m_2_9" .& #0x0fffffff) .<< #28)) .+ ("m_3_6" .>> #28)) .+ "m_3_7") .+ (("m_3_8" .& #0x0fffffff) .<< #28)) .+ ("m_4_5" .>> #28)) .+ "m_4_6") .+ (("m_4_7" .& #0x0fffffff) .<< #28)) .+ ("m_5_4" .>> #28)) .+ "m_5_5") .+ (("m_5_6" .& #0x0fffffff) .<< #28)) .+ ("m_6_3" .>> #28)) .+ "m_6_4") .+ (("m_6_5" .& #0x0fffffff) .<< #28)) .+ ("m_7_2" .>> #28)) .+ "m_7_3") .+ (("m_7_4" .& #0x0fffffff) .<< #28)) .+ ("m_8_1" .>> #28)) .+ "m_8_2") .+ (("m_8_3" .& #0x0fffffff) .<< #28)) .+ ("m_9_0" .>> #28)) .+ "m_9_1") .+ (("m_9_2" .& #0x0fffffff) .<< #28)) .+ "c4";
    (*666*) "c5" <- "d5" .>> #56;
    (*667*) "d6" <- ((((((((((((((((((((("m_2_9" .>> #28) .+ ("m_3_8" .>> #28)) .+ "m_3_9") .+ ("m_4_7" .>> #28)) .+ "m_4_8") .+ (("m_4_9" .& #0x0fffffff) .<< #28)) .+ ("m_5_6" .>> #28)) .+ "m_5_7") .+ (("m_5_8" .& #0x0fffffff) .<< #28)) .+ ("m_6_5" .>> #28)) .+ "m_6_6") .+ (("m_6_7" .& #0x0fffffff) .<< #28)) .+ ("m_7_4" .>> #28)) .+ "m_7_5") .+ (("m_7_6" .& #0x0fffffff) .<< #28)) .+ ("m_8_3" .>> #28)) .+ "m_8_4") .+ (("m_8_5" .& #0x0fffffff) .<< #28)) .+ ("m_9_2" .>> #28)) .+ "m_9_3") .+ (("m_9_4" .& #0x0fffffff) .<< #28)) .+ "c5";
    (*675*) "c6" <- "d6" .>> #56;
    (*676*) "d7" <- ((((((((((((((("m_4_9" .>> #28) .+ ("m_5_8" .>> #28)) .+ "m_5_9") .+ ("m_6_7" .>> #28)) .+ "m_6_8") .+ (("m_6_9" .& #0x0fffffff) .<< #28)) .+ ("m_7_6" .>> #28)) .+ "m_7_7") .+ (("m_7_8" .& #0x0fffffff) .<< #28)) .+ ("m_8_5" .>> #28)) .+ "m_8_6") .+ (("m_8_7" .& #0x0fffffff) .<< #28)) .+ ("m_9_4" .>> #28)) .+ "m_9_5") .+ (("m_9_6" .& #0x0fffffff) .<< #28)) .+ "c6";
    (*683*) "c7" <- "d7" .>> #56;
    (*684*) "d8" <- ((((((((("m_6_9" .>> #28) .+ ("m_7_8" .>> #28)) .+ "m_7_9") .+ ("m_8_7" .>> #28)) .+ "m_8_8") .+ (("m_8_9" .& #0x0fffffff) .<< #28)) .+ ("m_9_6" .>> #28)) .+ "m_9_7") .+ (("m_9_8" .& #0x0fffffff) .<< #28)) .+ "c7";
    (*689*) "c8" <- "d8" .>> #56;
    (*690*) "d9" <- ((("m_8_9" .>> #28) .+ ("m_9_8" .>> #28)) .+ "m_9_9") .+ "c8";
    (*696*) "l0_0" <- "d0" .& #0x00ffffffffffffff;
    (*697*) "l1_0" <- "d1" .& #0x00ffffffffffffff;
    (*698*) "l2_0" <- "d2" .& #0x00ffffffffffffff;
    (*699*) "l3_0" <- "d3" .& #0x00ffffffffffffff;
    (*700*) "l4_0" <- "d4" .& #0x000000007fffffff;
    (*703*) "h0_0" <- (("d4" .& #0x00ffffffffffffff) .>> #31) .| (("d5" .& #0x000000007fffffff) .<< #25);
    (*705*) "h1_0" <- (("d5" .& #0x00ffffffffffffff) .>> #31) .| (("d6" .& #0x000000007fffffff) .<< #25);
    (*707*) "h2_0" <- (("d6" .& #0x00ffffffffffffff) .>> #31) .| (("d7" .& #0x000000007fffffff) .<< #25);
    (*709*) "h3_0" <- (("d7" .& #0x00ffffffffffffff) .>> #31) .| (("d8" .& #0x000000007fffffff) .<< #25);
    (*711*) "h4_0" <- (("d8" .& #0x00ffffffffffffff) .>> #31) .| ("d9" .<< #25);
    (*715*) "hc0_0" <- "h0_0" .* (EInt C_VAL);
    (*716*) "hc1_0" <- "h1_0" .* (EInt C_VAL);
    (*717*) "hc2_0" <- "h2_0" .* (EInt C_VAL);
    (*718*) "hc3_0" <- "h3_0" .* (EInt C_VAL);
    (*719*) "hc4_0" <- "h4_0" .* (EInt C_VAL);
    (*722*) "kin_0" <- "hc4_0" .>> #31;
    (*723*) "s0_0" <- ("l0_0" .+ "hc0_0") .+ ("kin_0" .* (EInt C_VAL));
    (*724*) "k0_0" <- "s0_0" .>> #56;
    (*725*) "s1_0" <- ("l1_0" .+ "hc1_0") .+ "k0_0";
    (*726*) "k1_0" <- "s1_0" .>> #56;
    (*727*) "s2_0" <- ("l2_0" .+ "hc2_0") .+ "k1_0";
    (*728*) "k2_0" <- "s2_0" .>> #56;
    (*729*) "s3_0" <- ("l3_0" .+ "hc3_0") .+ "k2_0";
    (*730*) "k3_0" <- "s3_0" .>> #56;
    (*731*) "s4_0" <- ("l4_0" .+ ("hc4_0" .& #0x000000007fffffff)) .+ "k3_0";
    (*733*) SSet "self" #0 ("s0_0" .& #0x00ffffffffffffff);
    (*734*) SSet "self" #1 ("s1_0" .& #0x00ffffffffffffff);
    (*735*) SSet "self" #2 ("s2_0" .& #0x00ffffffffffffff);
    (*736*) SSet "self" #3 ("s3_0" .& #0x00ffffffffffffff);
    (*737*) SSet "self" #4 ("s4_0") ]
    [].

(* src/field/mod_e255_19.rs:742-744  MulAssign<F>  F::mul_assign(F) *)
Definition f_mul_assign_val : func := mkfunc ["self"; "rhs"] [
    (*743*) SCall [] "F::mul_assign(&F)" [AMut "self"; AVal "rhs"] ]
    [].

(* src/field/mod_e255_19.rs:750-752  Mul<&F>  i32::mul(&F) *)
Definition f_i32_mul_ref : func := mkfunc ["self"; "a"] [
    (*751*) SCall ["%1"] "F::small_mul" [AVal "a"; AVal "self"] ]
    [EVar "%1"].

(* src/field/mod_e255_19.rs:758-760  Mul<&F>  i16::mul(&F) *)
Definition f_i16_mul_ref : func := mkfunc ["self"; "a"] [
    (*759*) SCall ["%1"] "F::small_mul" [AVal "a"; AVal (ECast I32 "self")] ]
    [EVar "%1"].

(* src/field/mod_e255_19.rs:766-768  Mul<&F>  i8::mul(&F) *)
Definition f_i8_mul_ref : func := mkfunc ["self"; "a"] [
    (*767*) SCall ["%1"] "F::small_mul" [AVal "a"; AVal (ECast I32 "self")] ]
    [EVar "%1"].

(* src/field/mod_e255_19.rs:774-776  Mul<i32>  (&F)::mul(i32) *)
Definition f_ref_mul_i32 : func := mkfunc ["self"; "a"] [
    (*775*) SCall ["%1"] "F::small_mul" [AVal "self"; AVal "a"] ]
    [EVar "%1"].

(* src/field/mod_e255_19.rs:782-784  Mul<i16>  (&F)::mul(i16) *)
Definition f_ref_mul_i16 : func := mkfunc ["self"; "a"] [
    (*783*) SCall ["%1"] "F::small_mul" [AVal "self"; AVal (ECast I32 "a")] ]
    [EVar "%1"].

(* src/field/mod_e255_19.rs:790-792  Mul<i8>  (&F)::mul(i8) *)
Definition f_ref_mul_i8 : func := mkfunc ["self"; "a"] [
    (*791*) SCall ["%1"] "F::small_mul" [AVal "self"; AVal (ECast I32 "a")] ]
    [EVar "%1"].

(* src/field/mod_e255_19.rs:798-800  Mul<i32>  F::mul(i32) *)
Definition f_mul_i32 : func := mkfunc ["self"; "a"] [
    (*799*) SCall ["%1"] "(&F)::mul(i32)" [AVal "self"; AVal "a"] ]
    [EVar "%1"].

(* src/field/mod_e255_19.rs:806-808  Mul<i16>  F::mul(i16) *)
Definition f_mul_i16 : func := mkfunc ["self"; "a"] [
    (*807*) SCall ["%1"] "(&F)::mul(i16)" [AVal "self"; AVal "a"] ]
    [EVar "%1"].

(* src/field/mod_e255_19.rs:814-816  Mul<i8>  F::mul(i8) *)
Definition f_mul_i8 : func := mkfunc ["self"; "a"] [
    (*815*) SCall ["%1"] "(&F)::mul(i8)" [AVal "self"; AVal "a"] ]
    [EVar "%1"].

(* src/field/mod_e255_19.rs:822-826  Mul<&F>  (&F)::mul(&F) *)
Definition f_ref_mul_ref : func := mkfunc ["self"; "a"] [
    (*823*) "out" <- "self";
    (*824*) SCall [] "F::mul_assign(&F)" [AMut "out"; AVal "a"] ]
    [EVar "out"].

(* src/field/mod_e255_19.rs:832-834  Mul<F>  F::mul(F) *)
Definition f_mul_val : func := mkfunc ["self"; "a"] [
    (*833*) SCall ["%1"] "(&F)::mul(&F)" [AVal "self"; AVal "a"] ]
    [EVar "%1"].

(* src/field/mod_e255_19.rs:838-846  Rand  F::rand *)
Definition f_rand : func := mkfunc ["rng"] [
    (*839*) "out" <- ERep #0 5;
    (*841*) SFor "i" #0 #5 [
      (*842*) SGenRange "%1" "rng" #0 ((ELit MODULUS).["i"]);
      (*842*) SSet "out" "i" ("%1") ] ]
    [EVar "out"].

(* src/field/mod_e255_19.rs:850-883  Pack  F::unpack *)
Definition f_unpack : func := mkfunc ["self"; "bytes"] [
    (*851*) SSet "self" #0 ((((((((ECast I64 ("bytes".[#0])) .& #0x00000000000000ff) .| (((ECast I64 ("bytes".[#1])) .<< #8) .& #0x000000000000ff00)) .| (((ECast I64 ("bytes".[#2])) .<< #16) .& #0x0000000000ff0000)) .| (((ECast I64 ("bytes".[#3])) .<< #24) .& #0x00000000ff000000)) .| (((ECast I64 ("bytes".[#4])) .<< #32) .& #0x000000ff00000000)) .| (((ECast I64 ("bytes".[#5])) .<< #40) .& #0x0000ff0000000000)) .| (((ECast I64 ("bytes".[#6])) .<< #48) .& #0x00ff000000000000));
    (*858*) SSet "self" #1 ((((((((ECast I64 ("bytes".[#7])) .& #0x00000000000000ff) .| (((ECast I64 ("bytes".[#8])) .<< #8) .& #0x000000000000ff00)) .| (((ECast I64 ("bytes".[#9])) .<< #16) .& #0x0000000000ff0000)) .| (((ECast I64 ("bytes".[#10])) .<< #24) .& #0x00000000ff000000)) .| (((ECast I64 ("bytes".[#11])) .<< #32) .& #0x000000ff00000000)) .| (((ECast I64 ("bytes".[#12])) .<< #40) .& #0x0000ff0000000000)) .| (((ECast I64 ("bytes".[#13])) .<< #48) .& #0x00ff000000000000));
    (*865*) SSet "self" #2 ((((((((ECast I64 ("bytes".[#14])) .& #0x00000000000000ff) .| (((ECast I64 ("bytes".[#15])) .<< #8) .& #0x000000000000ff00)) .| (((ECast I64 ("bytes".[#16])) .<< #16) .& #0x0000000000ff0000)) .| (((ECast I64 ("bytes".[#17])) .<< #24) .& #0x00000000ff000000)) .| (((ECast I64 ("bytes".[#18])) .<< #32) .& #0x000000ff00000000)) .| (((ECast I64 ("bytes".[#19])) .<< #40) .& #0x0000ff0000000000)) .| (((ECast I64 ("bytes".[#20])) .<< #48) .& #0x00ff000000000000));
    (*872*) SSet "self" #3 ((((((((ECast I64 ("bytes".[#21])) .& #0x00000000000000ff) .| (((ECast I64 ("bytes".[#22])) .<< #8) .& #0x000000000000ff00)) .| (((ECast I64 ("bytes".[#23])) .<< #16) .& #0x0000000000ff0000)) .| (((ECast I64 ("bytes".[#24])) .<< #24) .& #0x00000000ff000000)) .| (((ECast I64 ("bytes".[#25])) .<< #32) .& #0x000000ff00000000)) .| (((ECast I64 ("bytes".[#26])) .<< #40) .& #0x0000ff0000000000)) .| (((ECast I64 ("bytes".[#27])) .<< #48) .& #0x00ff000000000000));
    (*879*) SSet "self" #4 (((((ECast I64 ("bytes".[#28])) .& #0x00000000000000ff) .| (((ECast I64 ("bytes".[#29])) .<< #8) .& #0x000000000000ff00)) .| (((ECast I64 ("bytes".[#30])) .<< #16) .& #0x0000000000ff0000)) .| (((ECast I64 ("bytes".[#31])) .<< #24) .& #0x000000007f000000)) ]
    [].

(* src/field/mod_e255_19.rs:885-889  Pack  F::unpacked *)
Definition f_unpacked : func := mkfunc ["bytes"] [
    (*886*) "out" <- ELit ZERO;
    (*887*) SCall [] "F::unpack" [AMut "out"; AVal "bytes"] ]
    [EVar "out"].

(* src/field/mod_e255_19.rs:891-894  Pack  F::pack *)
Definition f_pack : func := mkfunc ["self"; "bytes"] [
    (*892*) SCall [] "F::normalize" [AMut "self"];
    (*893*) SCall [] "F::pack_normalized" [AVal "self"; AMut "bytes"] ]
    [].

(* src/field/mod_e255_19.rs:896-929  Pack  F::pack_normalized *)
Definition f_pack_normalized : func := mkfunc ["self"; "bytes"] [
    (*897*) SSet "bytes" #0 (ECast U8 (("self".[#0]) .& #255));
    (*898*) SSet "bytes" #1 (ECast U8 ((("self".[#0]) .>> #8) .& #255));
    (*899*) SSet "bytes" #2 (ECast U8 ((("self".[#0]) .>> #16) .& #255));
    (*900*) SSet "bytes" #3 (ECast U8 ((("self".[#0]) .>> #24) .& #255));
    (*901*) SSet "bytes" #4 (ECast U8 ((("self".[#0]) .>> #32) .& #255));
    (*902*) SSet "bytes" #5 (ECast U8 ((("self".[#0]) .>> #40) .& #255));
    (*903*) SSet "bytes" #6 (ECast U8 ((("self".[#0]) .>> #48) .& #255));
    (*904*) SSet "bytes" #7 (ECast U8 (("self".[#1]) .& #255));
    (*905*) SSet "bytes" #8 (ECast U8 ((("self".[#1]) .>> #8) .& #255));
    (*906*) SSet "bytes" #9 (ECast U8 ((("self".[#1]) .>> #16) .& #255));
    (*907*) SSet "bytes" #10 (ECast U8 ((("self".[#1]) .>> #24) .& #255));
    (*908*) SSet "bytes" #11 (ECast U8 ((("self".[#1]) .>> #32) .& #255));
    (*909*) SSet "bytes" #12 (ECast U8 ((("self".[#1]) .>> #40) .& #255));
    (*910*) SSet "bytes" #13 (ECast U8 ((("self".[#1]) .>> #48) .& #255));
    (*911*) SSet "bytes" #14 (ECast U8 (("self".[#2]) .& #255));
    (*912*) SSet "bytes" #15 (ECast U8 ((("self".[#2]) .>> #8) .& #255));
    (*913*) SSet "bytes" #16 (ECast U8 ((("self".[#2]) .>> #16) .& #255));
    (*914*) SSet "bytes" #17 (ECast U8 ((("self".[#2]) .>> #24) .& #255));
    (*915*) SSet "bytes" #18 (ECast U8 ((("self".[#2]) .>> #32) .& #255));
    (*916*) SSet "bytes" #19 (ECast U8 ((("self".[#2]) .>> #40) .& #255));
    (*917*) SSet "bytes" #20 (ECast U8 ((("self".[#2]) .>> #48) .& #255));
    (*918*) SSet "bytes" #21 (ECast U8 (("self".[#3]) .& #255));
    (*919*) SSet "bytes" #22 (ECast U8 ((("self".[#3]) .>> #8) .& #255));
    (*920*) SSet "bytes" #23 (ECast U8 ((("self".[#3]) .>> #16) .& #255));
    (*921*) SSet "bytes" #24 (ECast U8 ((("self".[#3]) .>> #24) .& #255));
    (*922*) SSet "bytes" #25 (ECast U8 ((("self".[#3]) .>> #32) .& #255));
    (*923*) SSet "bytes" #26 (ECast U8 ((("self".[#3]) .>> #40) .& #255));
    (*924*) SSet "bytes" #27 (ECast U8 ((("self".[#3]) .>> #48) .& #255));
    (*925*) SSet "bytes" #28 (ECast U8 (("self".[#4]) .& #255));
    (*926*) SSet "bytes" #29 (ECast U8 ((("self".[#4]) .>> #8) .& #255));
    (*927*) SSet "bytes" #30 (ECast U8 ((("self".[#4]) .>> #16) .& #255));
    (*928*) SSet "bytes" #31 (ECast U8 ((("self".[#4]) .>> #24) .& #127)) ]
    [].

(* src/field/mod_e255_19.rs:931-933  Pack  F::nbytes *)
Definition f_nbytes : func := mkfunc [] [
 ]
    [#32].

(* src/field/mod_e255_19.rs:937-941  Normalize  F::normalize *)
Definition f_normalize : func := mkfunc ["self"] [
    (*938*) SCall ["plusc"] "(&F)::add(i32)" [AVal "self"; AVal (ECast I32 (EInt C_VAL))];
    (*939*) SCall ["offset"] "(&F)::mul(i32)" [AVal (ELit MODULUS); AVal (ECast I32 (carry_out "plusc"))];
    (*940*) SCall [] "F::sub_assign(&F)" [AMut "self"; AVal "offset"] ]
    [].

(* src/field/mod_e255_19.rs:945-957  NormalizeEq  F::normalize_self_eq *)
Definition f_normalize_self_eq : func := mkfunc ["self"; "other"] [
    (*946*) "are_equal" <- #1;
    (*948*) SCall [] "F::normalize" [AMut "self"];
    (*950*) "are_equal" <- "are_equal" .& (EEq ("self".[#0]) ("other".[#0]));
    (*951*) "are_equal" <- "are_equal" .& (EEq ("self".[#1]) ("other".[#1]));
    (*952*) "are_equal" <- "are_equal" .& (EEq ("self".[#2]) ("other".[#2]));
    (*953*) "are_equal" <- "are_equal" .& (EEq ("self".[#3]) ("other".[#3]));
    (*954*) "are_equal" <- "are_equal" .& (EEq ("self".[#4]) ("other".[#4])) ]
    [EVar "are_equal"].

(* src/field/mod_e255_19.rs:959-962  NormalizeEq  F::normalize_eq *)
Definition f_normalize_eq : func := mkfunc ["self"; "other"] [
    (*960*) SCall [] "F::normalize" [AMut "other"];
    (*961*) SCall ["%1"] "F::normalize_self_eq" [AMut "self"; AVal "other"] ]
    [EVar "%1"].

(* src/field/mod_e255_19.rs:966-981  PrimeFieldMask  Mask::fill *)
Definition f_Mask_fill : func := mkfunc ["self"; "bit"] [
    (*967*) "mask" <- ECast I64 "bit";
    (*969*) "mask" <- "mask" .| ("mask" .<< #1);
    (*970*) "mask" <- "mask" .| ("mask" .<< #2);
    (*971*) "mask" <- "mask" .| ("mask" .<< #4);
    (*972*) "mask" <- "mask" .| ("mask" .<< #8);
    (*973*) "mask" <- "mask" .| ("mask" .<< #16);
    (*974*) "mask" <- "mask" .| ("mask" .<< #32);
    (*976*) SSet "self" #0 ("mask");
    (*977*) SSet "self" #1 ("mask");
    (*978*) SSet "self" #2 ("mask");
    (*979*) SSet "self" #3 ("mask");
    (*980*) SSet "self" #4 ("mask") ]
    [].

(* src/field/mod_e255_19.rs:983-994  PrimeFieldMask  Mask::filled *)
Definition f_Mask_filled : func := mkfunc ["bit"] [
    (*984*) "mask" <- ECast I64 "bit";
    (*986*) "mask" <- "mask" .| ("mask" .<< #1);
    (*987*) "mask" <- "mask" .| ("mask" .<< #2);
    (*988*) "mask" <- "mask" .| ("mask" .<< #4);
    (*989*) "mask" <- "mask" .| ("mask" .<< #8);
    (*990*) "mask" <- "mask" .| ("mask" .<< #16);
    (*991*) "mask" <- "mask" .| ("mask" .<< #32) ]
    [ERep "mask" 5].

(* src/field/mod_e255_19.rs:998-1013  PrimeField  F::fill *)
Definition f_fill : func := mkfunc ["self"; "bit"] [
    (*999*) "mask" <- ECast I64 "bit";
    (*1001*) "mask" <- "mask" .| ("mask" .<< #1);
    (*1002*) "mask" <- "mask" .| ("mask" .<< #2);
    (*1003*) "mask" <- "mask" .| ("mask" .<< #4);
    (*1004*) "mask" <- "mask" .| ("mask" .<< #8);
    (*1005*) "mask" <- "mask" .| ("mask" .<< #16);
    (*1006*) "mask" <- "mask" .| ("mask" .<< #32);
    (*1008*) SSet "self" #0 ("mask");
    (*1009*) SSet "self" #1 ("mask");
    (*1010*) SSet "self" #2 ("mask");
    (*1011*) SSet "self" #3 ("mask");
    (*1012*) SSet "self" #4 ("mask") ]
    [].

(* src/field/mod_e255_19.rs:1015-1026  PrimeField  F::filled *)
Definition f_filled : func := mkfunc ["bit"] [
    (*1016*) "mask" <- ECast I64 "bit";
    (*1018*) "mask" <- "mask" .| ("mask" .<< #1);
    (*1019*) "mask" <- "mask" .| ("mask" .<< #2);
    (*1020*) "mask" <- "mask" .| ("mask" .<< #4);
    (*1021*) "mask" <- "mask" .| ("mask" .<< #8);
    (*1022*) "mask" <- "mask" .| ("mask" .<< #16);
    (*1023*) "mask" <- "mask" .| ("mask" .<< #32) ]
    [ERep "mask" 5].

(* src/field/mod_e255_19.rs:1028-1028  PrimeField  F::nbits *)
Definition f_nbits : func := mkfunc [] [
 ]
    [#255].

(* src/field/mod_e255_19.rs:1030-1035  PrimeField  F::bit_normalized *)
Definition f_bit_normalized : func := mkfunc ["self"; "idx"] [
    (*1031*) "byte" <- EUDiv "idx" #56;
    (*1032*) "bit" <- EURem "idx" #56 ]
    [EEq ((("self".["byte"]) .>> "bit") .& #0x1) #0x1].

(* src/field/mod_e255_19.rs:1037-1040  PrimeField  F::bit *)
Definition f_bit : func := mkfunc ["self"; "idx"] [
    (*1038*) SCall [] "F::normalize" [AMut "self"];
    (*1039*) SCall ["%1"] "F::bit_normalized" [AVal "self"; AVal "idx"] ]
    [EVar "%1"].

(* src/field/mod_e255_19.rs:1042-1045  PrimeField  F::normalize_bitand *)
Definition f_normalize_bitand : func := mkfunc ["self"; "rhs"] [
    (*1043*) SCall [] "F::normalize" [AMut "rhs"];
    (*1044*) SCall [] "F::normalize_self_bitand" [AMut "self"; AVal "rhs"] ]
    [].

(* src/field/mod_e255_19.rs:1047-1050  PrimeField  F::normalize_self_bitand *)
Definition f_normalize_self_bitand : func := mkfunc ["self"; "rhs"] [
    (*1048*) SCall [] "F::normalize" [AMut "self"];
    (*1049*) SCall [] "F::normalized_bitand" [AMut "self"; AVal "rhs"] ]
    [].

(* src/field/mod_e255_19.rs:1052-1058  PrimeField  F::normalized_bitand *)
Definition f_normalized_bitand : func := mkfunc ["self"; "rhs"] [
    (*1053*) SSet "self" #0 (("self".[#0]) .& ("rhs".[#0]));
    (*1054*) SSet "self" #1 (("self".[#1]) .& ("rhs".[#1]));
    (*1055*) SSet "self" #2 (("self".[#2]) .& ("rhs".[#2]));
    (*1056*) SSet "self" #3 (("self".[#3]) .& ("rhs".[#3]));
    (*1057*) SSet "self" #4 (("self".[#4]) .& ("rhs".[#4])) ]
    [].

(* src/field/mod_e255_19.rs:1060-1063  PrimeField  F::normalize_bitor *)
Definition f_normalize_bitor : func := mkfunc ["self"; "rhs"] [
    (*1061*) SCall [] "F::normalize" [AMut "rhs"];
    (*1062*) SCall [] "F::normalize_self_bitor" [AMut "self"; AVal "rhs"] ]
    [].

(* src/field/mod_e255_19.rs:1065-1068  PrimeField  F::normalize_self_bitor *)
Definition f_normalize_self_bitor : func := mkfunc ["self"; "rhs"] [
    (*1066*) SCall [] "F::normalize" [AMut "self"];
    (*1067*) SCall [] "F::normalized_bitor" [AMut "self"; AVal "rhs"] ]
    [].

(* src/field/mod_e255_19.rs:1070-1076  PrimeField  F::normalized_bitor *)
Definition f_normalized_bitor : func := mkfunc ["self"; "rhs"] [
    (*1071*) SSet "self" #0 (("self".[#0]) .| ("rhs".[#0]));
    (*1072*) SSet "self" #1 (("self".[#1]) .| ("rhs".[#1]));
    (*1073*) SSet "self" #2 (("self".[#2]) .| ("rhs".[#2]));
    (*1074*) SSet "self" #3 (("self".[#3]) .| ("rhs".[#3]));
    (*1075*) SSet "self" #4 (("self".[#4]) .| ("rhs".[#4])) ]
    [].

(* src/field/mod_e255_19.rs:1078-1080  PrimeField  F::zero *)
Definition f_zero : func := mkfunc [] [
 ]
    [ELit ZERO].

(* src/field/mod_e255_19.rs:1082-1084  PrimeField  F::one *)
Definition f_one : func := mkfunc [] [
 ]
    [ELit ONE].

(* src/field/mod_e255_19.rs:1086-1088  PrimeField  F::m_one *)
Definition f_m_one : func := mkfunc [] [
 ]
    [ELit M_ONE].

(* src/field/mod_e255_19.rs:1090-1092  PrimeField  F::modulus *)
Definition f_modulus : func := mkfunc [] [
 ]
    [ELit MODULUS].

(* src/field/mod_e255_19.rs:1094-1326  PrimeField  F::square *)
Definition f_square : func := mkfunc ["self"] [
    (*1095*) "a0" <- ("self".[#0]) .& #0x0fffffff;
    (*1096*) "a1" <- ("self".[#0]) .>> #28;
    (*1097*) "a2" <- ("self".[#1]) .& #0x0fffffff;
    (*1098*) "a3" <- ("self".[#1]) .>> #28;
    (*1099*) "a4" <- ("self".[#2]) .& #0x0fffffff;
    (*1100*) "a5" <- ("self".[#2]) .>> #28;
    (*1101*) "a6" <- ("self".[#3]) .& #0x0fffffff;
    (*1102*) "a7" <- ("self".[#3]) .>> #28;
    (*1103*) "a8" <- ("self".[#4]) .& #0x0fffffff;
    (*1104*) "a9" <- ("self".[#4]) .>> #28;
    (*1107*) "m_0_0" <- "a0" .* "a0";
    (*1108*) "m_0_1" <- "a0" .* "a1";
    (*1109*) "m_0_2" <- "a0" .* "a2";
    (*1110*) "m_0_3" <- "a0" .* "a3";
    (*1111*) "m_0_4" <- "a0" .* "a4";
    (*1112*) "m_0_5" <- "a0" .* "a5";
    (*1113*) "m_0_6" <- "a0" .* "a6";
    (*1114*) "m_0_7" <- "a0" .* "a7";
    (*1115*) "m_0_8" <- "a0" .* "a8";
    (*1116*) "m_0_9" <- "a0" .* "a9";
    (*1117*) "m_1_0" <- "m_0_1";
    (*1118*) "m_1_1" <- "a1" .* "a1";
    (*1119*) "m_1_2" <- "a1" .* "a2";
    (*1120*) "m_1_3" <- "a1" .* "a3";
    (*1121*) "m_1_4" <- "a1" .* "a4";
    (*1122*) "m_1_5" <- "a1" .* "a5";
    (*1123*) "m_1_6" <- "a1" .* "a6";
    (*1124*) "m_1_7" <- "a1" .* "a7";
    (*1125*) "m_1_8" <- "a1" .* "a8";
    (*1126*) "m_1_9" <- "a1" .* "a9";
    (*1127*) "m_2_0" <- "m_0_2";
    (*1128*) "m_2_1" <- "m_1_2";
    (*1129*) "m_2_2" <- "a2" .* "a2";
    (*1130*) "m_2_3" <- "a2" .* "a3";
    (*1131*) "m_2_4" <- "a2" .* "a4";
    (*1132*) "m_2_5" <- "a2" .* "a5";
    (*1133*) "m_2_6" <- "a2" .* "a6";
    (*1134*) "m_2_7" <- "a2" .* "a7";
    (*1135*) "m_2_8" <- "a2" .* "a8";
    (*1136*) "m_2_9" <- "a2" .* "a9";
    (*1137*) "m_3_0" <- "m_0_3";
    (*1138*) "m_3_1" <- "m_1_3";
    (*1139*) "m_3_2" <- "m_2_3";
    (*1140*) "m_3_3" <- "a3" .* "a3";
    (*1141*) "m_3_4" <- "a3" .* "a4";
    (*1142*) "m_3_5" <- "a3" .* "a5";
    (*1143*) "m_3_6" <- "a3" .* "a6";
    (*1144*) "m_3_7" <- "a3" .* "a7";
    (*1145*) "m_3_8" <- "a3" .* "a8";
    (*1146*) "m_3_9" <- "a3" .* "a9";
    (*1147*) "m_4_0" <- "m_0_4";
    (*1148*) "m_4_1" <- "m_1_4";
    (*1149*) "m_4_2" <- "m_2_4";
    (*1150*) "m_4_3" <- "m_3_4";
    (*1151*) "m_4_4" <- "a4" .* "a4";
    (*1152*) "m_4_5" <- "a4" .* "a5";
    (*1153*) "m_4_6" <- "a4" .* "a6";
    (*1154*) "m_4_7" <- "a4" .* "a7";
    (*1155*) "m_4_8" <- "a4" .* "a8";
    (*1156*) "m_4_9" <- "a4" .* "a9";
    (*1157*) "m_5_0" <- "m_0_5";
    (*1158*) "m_5_1" <- "m_1_5";
    (*1159*) "m_5_2" <- "m_2_5";
    (*1160*) "m_5_3" <- "m_3_5";
    (*1161*) "m_5_4" <- "m_4_5";
    (*1162*) "m_5_5" <- "a5" .* "a5";
    (*1163*) "m_5_6" <- "a5" .* "a6";
    (*1164*) "m_5_7" <- "a5" .* "a7";
    (*1165*) "m_5_8" <- "a5" .* "a8";
    (*1166*) "m_5_9" <- "a5" .* "a9";
    (*1167*) "m_6_0" <- "m_0_6";
    (*1168*) "m_6_1" <- "m_1_6";
    (*1169*) "m_6_2" <- "m_2_6";
    (*1170*) "m_6_3" <- "m_3_6";
    (*1171*) "m_6_4" <- "m_4_6";
    (*1172*) "m_6_5" <- "m_5_6";
    (*1173*) "m_6_6" <- "a6" .* "a6";
    (*1174*) "m_6_7" <- "a6" .* "a7";
    (*1175*) "m_6_8" <- "a6" .* "a8";
    (*1176*) "m_6_9" <- "a6" .* "a9";
    (*1177*) "m_7_0" <- "m_0_7";
    (*1178*) "m_7_1" <- "m_1_7";
    (*1179*) "m_7_2" <- "m_2_7";
    (*1180*) "m_7_3" <- "m_3_7";
    (*1181*) "m_7_4" <- "m_4_7";
    (*1182*) "m_7_5" <- "m_5_7";
    (*1183*) "m_7_6" <- "m_6_7";
    (*1184*) "m_7_7" <- "a7" .* "a7";
    (*1185*) "m_7_8" <- "a7" .* "a8";
    (*1186*) "m_7_9" <- "a7" .* "a9";
    (*1187*) "m_8_0" <- "m_0_8";
    (*1188*) "m_8_1" <- "m_1_8";
    (*1189*) "m_8_2" <- "m_2_8";
    (*1190*) "m_8_3" <- "m_3_8";
    (*1191*) "m_8_4" <- "m_4_8";
    (*1192*) "m_8_5" <- "m_5_8";
    (*1193*) "m_8_6" <- "m_6_8";
    (*1194*) "m_8_7" <- "m_7_8";
    (*1195*) "m_8_8" <- "a8" .* "a8";
    (*1196*) "m_8_9" <- "a8" .* "a9";
    (*1197*) "m_9_0" <- "m_0_9";
    (*1198*) "m_9_1" <- "m_1_9";
    (*1199*) "m_9_2" <- "m_2_9";
    (*1200*) "m_9_3" <- "m_3_9";
    (*1201*) "m_9_4" <- "m_4_9";
    (*1202*) "m_9_5" <- "m_5_9";
    (*1203*) "m_9_6" <- "m_6_9";
    (*1204*) "m_9_7" <- "m_7_9";
    (*1205*) "m_9_8" <- "m_8_9";
    (*1206*) "m_9_9" <- "a9" .* "a9";
    (*1209*) "d0" <- ("m_0_0" .+ (("m_0_1" .& #0x0fffffff) .<< #28)) .+ (("m_1_0" .& #0x0fffffff) .<< #28);
    (*1211*) "c0" <- "d0" .>> #56;
    (*1212*) "d1" <- ((((((((("m_0_1" .>> #28) .+ "m_0_2") .+ (("m_0_3" .& #0x0fffffff) .<< #28)) .+ ("m_1_0" .>> #28)) .+ "m_1_1") .+ (("m_1_2" .& #0x0fffffff) .<< #28)) .+ "m_2_0") .+ (("m_2_1" .& #0x0fffffff) .<< #28)) .+ (("m_3_0" .& #0x0fffffff) .<< #28)) .+ "c0";
    (*1216*) "c1" <- "d1" .>> #56;
    (*1217*) "d2" <- ((((((((((((((("m_0_3" .>> #28) .+ "m_0_4") .+ (("m_0_5" .& #0x0fffffff) .<< #28)) .+ ("m_1_2" .>> #28)) .+ "m_1_3") .+ (("m_1_4" .& #0x0fffffff) .<< #28)) .+ ("m_2_1" .>> #28)) .+ "m_2_2") .+ (("m_2_3" .& #0x0fffffff) .<< #28)) .+ ("m_3_0" .>> #28)) .+ "m_3_1") .+ (("m_3_2" .& #0x0fffffff) .<< #28)) .+ "m_4_0") .+ (("m_4_1" .& #0x0fffffff) .<< #28)) .+ (("m_5_0" .& #0x0fffffff) .<< #28)) .+ "c1";
    (*1223*) "c2" <- "d2" .>> #56;
    (*1224*) "d3" <- ((((((((((((((((((((("m_0_5" .>> #28) .+ "m_0_6") .+ (("m_0_7" .& #0x0fffffff) .<< #28)) .+ ("m_1_4" .>> #28)) .+ "m_1_5") .+ (("m_1_6" .& #0x0fffffff) .<< #28)) .+ ("m_2_3" .>> #28)) .+ "m_2_4") .+ (("m_2_5" .& #0x0fffffff) .<< #28)) .+ ("m_3_2" .>> #28)) .+ "m_3_3") .+ (("m_3_4" .& #0x0fffffff) .<< #28)) .+ ("m_4_1" .>> #28)) .+ "m_4_2") .+ (("m_4_3" .& #0x0fffffff) .<< #28)) .+ ("m_5_0" .>> #28)) .+ "m_5_1") .+ (("m_5_2" .& #0x0fffffff) .<< #28)) .+ "m_6_0") .+ (("m_6_1" .& #0x0fffffff) .<< #28)) .+ (("m_7_0" .& #0x0fffffff) .<< #28)) .+ "c2";
    (*1232*) "c3" <- "d3" .>> #56;
    (*1233*) "d4" <- ((((((((((((((((((((((((((("m_0_7" .>> #28) .+ "m_0_8") .+ (("m_0_9" .& #0x0fffffff) .<< #28)) .+ ("m_1_6" .>> #28)) .+ "m_1_7") .+ (("m_1_8" .& #0x0fffffff) .<< #28)) .+ ("m_2_5" .>> #28)) .+ "m_2_6") .+ (("m_2_7" .& #0x0fffffff) .<< #28)) .+ ("m_3_4" .>> #28)) .+ "m_3_5") .+ (("m_3_6" .& #0x0fffffff) .<< #28)) .+ ("m_4_3" .>> #28)) .+ "m_4_4") .+ (("m_4_5" .& #0x0fffffff) .<< #28)) .+ ("m_5_2" .>> #28)) .+ "m_5_3") .+ (("m_5_4" .& #0x0fffffff) .<< #28)) .+ ("m_6_1" .>> #28)) .+ "m_6_2") .+ (("m_6_3" .& #0x0fffffff) .<< #28)) .+ ("m_7_0" .>> #28)) .+ "m_7_1") .+ (("m_7_2" .& #0x0fffffff) .<< #28)) .+ "m_8_0") .+ (("m_8_1" .& #0x0fffffff) .<< #28)) .+ (("m_9_0" .& #0x0fffffff) .<< #28)) .+ "c3";
    (*1243*) "c4" <- "d4" .>> #56;
    (*1244*) "d5" <- ((((((((((((((((((((((((((("m_0_9" .>> #28) .+ ("m_1_8" .>> #28)) .+ "m_1_9") .+ ("m_2_7" .>> #28)) .+ "m_2_8") .+ (("m_2_9" .& #0x0fffffff) .<< #28)) .+ ("m_3_6" .>> #28)) .+ "m_3_7") .+ (("m_3_8" .& #0x0fffffff) .<< #28)) .+ ("m_4_5" .>> #28)) .+ "m_4_6") .+ (("m_4_7" .& #0x0fffffff) .<< #28)) .+ ("m_5_4" .>> #28)) .+ "m_5_5") .+ (("m_5_6" .& #0x0fffffff) .<< #28)) .+ ("m_6_3" .>> #28)) .+ "m_6_4") .+ (("m_6_5" .& #0x0fffffff) .<< #28)) .+ ("m_7_2" .>> #28)) .+ "m_7_3") .+ (("m_7_4" .& #0x0fffffff) .<< #28)) .+ ("m_8_1" .>> #28)) .+ "m_8_2") .+ (("m_8_3" .& #0x0fffffff) .<< #28)) .+ ("m_9_0" .>> #28)) .+ "m_9_1") .+ (("m_9_2" .& #0x0fffffff) .<< #28)) .+ "c4";
    (*1254*) "c5" <- "d5" .>> #56;
    (*1255*) "d6" <- ((((((((((((((((((((("m_2_9" .>> #28) .+ ("m_3_8" .>> #28)) .+ "m_3_9") .+ ("m_4_7" .>> #28)) .+ "m_4_8") .+ (("m_4_9" .& #0x0fffffff) .<< #28)) .+ ("m_5_6" .>> #28)) .+ "m_5_7") .+ (("m_5_8" .& #0x0fffffff) .<< #28)) .+ ("m_6_5" .>> #28)) .+ "m_6_6") .+ (("m_6_7" .& #0x0fffffff) .<< #28)) .+ ("m_7_4" .>> #28)) .+ "m_7_5") .+ (("m_7_6" .& #0x0fffffff) .<< #28)) .+ ("m_8_3" .>> #28)) .+ "m_8_4") .+ (("m_8_5" .& #0x0fffffff) .<< #28)) .+ ("m_9_2" .>> #28)) .+ "m_9_3") .+ (("m_9_4" .& #0x0fffffff) .<< #28)) .+ "c5";
    (*1263*) "c6" <- "d6" .>> #56;
    (*1264*) "d7" <- ((((((((((((((("m_4_9" .>> #28) .+ ("m_5_8" .>> #28)) .+ "m_5_9") .+ ("m_6_7" .>> #28)) .+ "m_6_8") .+ (("m_6_9" .& #0x0fffffff) .<< #28)) .+ ("m_7_6" .>> #28)) .+ "m_7_7") .+ (("m_7_8" .& #0x0fffffff) .<< #28)) .+ ("m_8_5" .>> #28)) .+ "m_8_6") .+ (("m_8_7" .& #0x0fffffff) .<< #28)) .+ ("m_9_4" .>> #28)) .+ "m_9_5") .+ (("m_9_6" .& #0x0fffffff) .<< #28)) .+ "c6";
    (*1271*) "c7" <- "d7" .>> #56;
    (*1272*) "d8" <- ((((((((("m_6_9" .>> #28) .+ ("m_7_8" .>> #28)) .+ "m_7_9") .+ ("m_8_7" .>> #28)) .+ "m_8_8") .+ (("m_8_9" .& #0x0fffffff) .<< #28)) .+ ("m_9_6" .>> #28)) .+ "m_9_7") .+ (("m_9_8" .& #0x0fffffff) .<< #28)) .+ "c7";
    (*1277*) "c8" <- "d8" .>> #56;
    (*1278*) "d9" <- ((("m_8_9" .>> #28) .+ ("m_9_8" .>> #28)) .+ "m_9_9") .+ "c8";
    (*1284*) "l0_0" <- "d0" .& #0x00ffffffffffffff;
    (*1285*) "l1_0" <- "d1" .& #0x00ffffffffffffff;
    (*1286*) "l2_0" <- "d2" .& #0x00ffffffffffffff;
    (*1287*) "l3_0" <- "d3" .& #0x00ffffffffffffff;
    (*1288*) "l4_0" <- "d4" .& #0x000000007fffffff;
    (*1291*) "h0_0" <- (("d4" .& #0x00ffffffffffffff) .>> #31) .| (("d5" .& #0x000000007fffffff) .<< #25);
    (*1293*) "h1_0" <- (("d5" .& #0x00ffffffffffffff) .>> #31) .| (("d6" .& #0x000000007fffffff) .<< #25);
    (*1295*) "h2_0" <- (("d6" .& #0x00ffffffffffffff) .>> #31) .| (("d7" .& #0x000000007fffffff) .<< #25);
    (*1297*) "h3_0" <- (("d7" .& #0x00ffffffffffffff) .>> #31) .| (("d8" .& #0x000000007fffffff) .<< #25);
    (*1299*) "h4_0" <- (("d8" .& #0x00ffffffffffffff) .>> #31) .| ("d9" .<< #25);
    (*1303*) "hc0_0" <- "h0_0" .* (EInt C_VAL);
    (*1304*) "hc1_0" <- "h1_0" .* (EInt C_VAL);
    (*1305*) "hc2_0" <- "h2_0" .* (EInt C_VAL);
    (*1306*) "hc3_0" <- "h3_0" .* (EInt C_VAL);
    (*1307*) "hc4_0" <- "h4_0" .* (EInt C_VAL);
    (*1310*) "kin_0" <- "hc4_0" .>> #31;
    (*1311*) "s0_0" <- ("l0_0" .+ "hc0_0") .+ ("kin_0" .* (EInt C_VAL));
    (*1312*) "k0_0" <- "s0_0" .>> #56;
    (*1313*) "s1_0" <- ("l1_0" .+ "hc1_0") .+ "k0_0";
    (*1314*) "k1_0" <- "s1_0" .>> #56;
    (*1315*) "s2_0" <- ("l2_0" .+ "hc2_0") .+ "k1_0";
    (*1316*) "k2_0" <- "s2_0" .>> #56;
    (*1317*) "s3_0" <- ("l3_0" .+ "hc3_0") .+ "k2_0";
    (*1318*) "k3_0" <- "s3_0" .>> #56;
    (*1319*) "s4_0" <- ("l4_0" .+ ("hc4_0" .& #0x000000007fffffff)) .+ "k3_0";
    (*1321*) SSet "self" #0 ("s0_0" .& #0x00ffffffffffffff);
    (*1322*) SSet "self" #1 ("s1_0" .& #0x00ffffffffffffff);
    (*1323*) SSet "self" #2 ("s2_0" .& #0x00ffffffffffffff);
    (*1324*) SSet "self" #3 ("s3_0" .& #0x00ffffffffffffff);
    (*1325*) SSet "self" #4 ("s4_0") ]
    [].

(* src/field/mod_e255_19.rs:1328-1334  PrimeField  F::squared *)
Definition f_squared : func := mkfunc ["self"] [
    (*1329*) "out" <- "self";
    (*1331*) SCall [] "F::square" [AMut "out"] ]
    [EVar "out"].

(* src/field/mod_e255_19.rs:1336-1359  PrimeField  F::invert *)
Definition f_invert : func := mkfunc ["self"] [
    (*1338*) "sqval" <- "self";
    (*1341*) SCall [] "F::square" [AMut "sqval"];
    (*1342*) SCall [] "F::mul_assign(&F)" [AMut "self"; AVal "sqval"];
    (*1345*) SCall [] "F::square" [AMut "sqval"];
    (*1348*) SCall [] "F::square" [AMut "sqval"];
    (*1349*) SCall [] "F::mul_assign(&F)" [AMut "self"; AVal "sqval"];
    (*1352*) SCall [] "F::square" [AMut "sqval"];
    (*1355*) SFor "_" #5 #255 [
      (*1356*) SCall [] "F::square" [AMut "sqval"];
      (*1357*) SCall [] "F::mul_assign(&F)" [AMut "self"; AVal "sqval"] ] ]
    [].

(* src/field/mod_e255_19.rs:1361-1367  PrimeField  F::inverted *)
Definition f_inverted : func := mkfunc ["self"] [
    (*1362*) "out" <- "self";
    (*1364*) SCall [] "F::invert" [AMut "out"] ]
    [EVar "out"].

(* src/field/mod_e255_19.rs:1369-1389  PrimeField  F::legendre *)
Definition f_legendre : func := mkfunc ["self"] [
    (*1373*) SCall ["out"] "F::squared" [AVal "self"];
    (*1374*) "sqval" <- "out";
    (*1376*) SCall [] "F::square" [AMut "sqval"];
    (*1377*) SCall [] "F::mul_assign(&F)" [AMut "out"; AVal "sqval"];
    (*1380*) SCall [] "F::square" [AMut "sqval"];
    (*1383*) SFor "_" #4 #254 [
      (*1384*) SCall [] "F::square" [AMut "sqval"];
      (*1385*) SCall [] "F::mul_assign(&F)" [AMut "out"; AVal "sqval"] ] ]
    [EVar "out"].

(* src/field/mod_e255_19.rs:1391-1412  PrimeField  F::sqrt *)
Definition f_sqrt : func := mkfunc ["self"] [
    (*1395*) SCall ["out"] "F::squared" [AVal "self"];
    (*1396*) "sqval" <- "out";
    (*1399*) SFor "_" #2 #252 [
      (*1400*) SCall [] "F::square" [AMut "sqval"];
      (*1401*) SCall [] "F::mul_assign(&F)" [AMut "out"; AVal "sqval"] ];
    (*1404*) SCall ["coeff"] "F::quartic_legendre" [AVal "self"];
    (*1406*) SCall [] "F::sub_assign(&F)" [AMut "coeff"; AVal (ELit ONE)];
    (*1407*) SCall [] "F::mul_assign(&F)" [AMut "coeff"; AVal (ELit M_HALF)];
    (*1408*) SCall [] "F::mul_assign(&F)" [AMut "coeff"; AVal (ELit COEFF)];
    (*1409*) SCall [] "F::add_assign(&F)" [AMut "coeff"; AVal (ELit ONE)];
    (*1411*) SCall ["%3"] "(&F)::mul(&F)" [AVal "out"; AVal "coeff"] ]
    [EVar "%3"].

(* src/field/mod_e255_19.rs:1414-1439  PrimeField  F::small_add_assign *)
Definition f_small_add_assign : func := mkfunc ["self"; "rhs"] [
    (*1415*) "a0" <- "self".[#0];
    (*1416*) "a1" <- "self".[#1];
    (*1417*) "a2" <- "self".[#2];
    (*1418*) "a3" <- "self".[#3];
    (*1419*) "a4" <- ("self".[#4]) .& #0x000000007fffffff;
    (*1421*) "b" <- ECast I64 "rhs";
    (*1423*) "cin" <- carry_out "self";
    (*1424*) "s0" <- ("a0" .+ "b") .+ ("cin" .* (EInt C_VAL));
    (*1425*) "c0" <- "s0" .>> #56;
    (*1426*) "s1" <- "a1" .+ "c0";
    (*1427*) "c1" <- "s1" .>> #56;
    (*1428*) "s2" <- "a2" .+ "c1";
    (*1429*) "c2" <- "s2" .>> #56;
    (*1430*) "s3" <- "a3" .+ "c2";
    (*1431*) "c3" <- "s3" .>> #56;
    (*1432*) "s4" <- "a4" .+ "c3";
    (*1434*) SSet "self" #0 ("s0" .& #0x00ffffffffffffff);
    (*1435*) SSet "self" #1 ("s1" .& #0x00ffffffffffffff);
    (*1436*) SSet "self" #2 ("s2" .& #0x00ffffffffffffff);
    (*1437*) SSet "self" #3 ("s3" .& #0x00ffffffffffffff);
    (*1438*) SSet "self" #4 ("s4") ]
    [].

(* src/field/mod_e255_19.rs:1441-1447  PrimeField  F::small_add *)
Definition f_small_add : func := mkfunc ["self"; "rhs"] [
    (*1442*) "out" <- "self";
    (*1444*) SCall [] "F::small_add_assign" [AMut "out"; AVal "rhs"] ]
    [EVar "out"].

(* src/field/mod_e255_19.rs:1449-1474  PrimeField  F::small_sub_assign *)
Definition f_small_sub_assign : func := mkfunc ["self"; "rhs"] [
    (*1450*) "a0" <- "self".[#0];
    (*1451*) "a1" <- "self".[#1];
    (*1452*) "a2" <- "self".[#2];
    (*1453*) "a3" <- "self".[#3];
    (*1454*) "a4" <- ("self".[#4]) .& #0x000000007fffffff;
    (*1456*) "b" <- ECast I64 "rhs";
    (*1458*) "cin" <- carry_out "self";
    (*1459*) "s0" <- ("a0" .- "b") .+ ("cin" .* (EInt C_VAL));
    (*1460*) "c0" <- "s0" .>> #56;
    (*1461*) "s1" <- "a1" .+ "c0";
    (*1462*) "c1" <- "s1" .>> #56;
    (*1463*) "s2" <- "a2" .+ "c1";
    (*1464*) "c2" <- "s2" .>> #56;
    (*1465*) "s3" <- "a3" .+ "c2";
    (*1466*) "c3" <- "s3" .>> #56;
    (*1467*) "s4" <- "a4" .+ "c3";
    (*1469*) SSet "self" #0 ("s0" .& #0x00ffffffffffffff);
    (*1470*) SSet "self" #1 ("s1" .& #0x00ffffffffffffff);
    (*1471*) SSet "self" #2 ("s2" .& #0x00ffffffffffffff);
    (*1472*) SSet "self" #3 ("s3" .& #0x00ffffffffffffff);
    (*1473*) SSet "self" #4 ("s4") ]
    [].

(* src/field/mod_e255_19.rs:1476-1482  PrimeField  F::small_sub *)
Definition f_small_sub : func := mkfunc ["self"; "rhs"] [
    (*1477*) "out" <- "self";
    (*1479*) SCall [] "F::small_sub_assign" [AMut "out"; AVal "rhs"] ]
    [EVar "out"].

(* src/field/mod_e255_19.rs:1484-1525  PrimeField  F::small_mul_assign *)
Definition f_small_mul_assign : func := mkfunc ["self"; "rhs"] [
    (*1485*) "a0" <- ("self".[#0]) .& #0x0fffffff;
    (*1486*) "a1" <- ("self".[#0]) .>> #28;
    (*1487*) "a2" <- ("self".[#1]) .& #0x0fffffff;
    (*1488*) "a3" <- ("self".[#1]) .>> #28;
    (*1489*) "a4" <- ("self".[#2]) .& #0x0fffffff;
    (*1490*) "a5" <- ("self".[#2]) .>> #28;
    (*1491*) "a6" <- ("self".[#3]) .& #0x0fffffff;
    (*1492*) "a7" <- ("self".[#3]) .>> #28;
    (*1493*) "a8" <- ("self".[#4]) .& #0x0fffffff;
    (*1494*) "a9" <- ("self".[#4]) .>> #28;
    (*1496*) "b" <- ECast I64 "rhs";
    (*1498*) "m0" <- "a0" .* "b";
    (*1499*) "m1" <- "a1" .* "b";
    (*1500*) "m2" <- "a2" .* "b";
    (*1501*) "m3" <- "a3" .* "b";
    (*1502*) "m4" <- "a4" .* "b";
    (*1503*) "m5" <- "a5" .* "b";
    (*1504*) "m6" <- "a6" .* "b";
    (*1505*) "m7" <- "a7" .* "b";
    (*1506*) "m8" <- "a8" .* "b";
    (*1507*) "m9" <- "a9" .* "b";
    (*1509*) "cin" <- carry_out "self";
    (*1510*) "d0" <- ("m0" .+ (("m1" .& #0x0fffffff) .<< #28)) .+ ("cin" .* (EInt C_VAL));
    (*1511*) "c0" <- "d0" .>> #56;
    (*1512*) "d1" <- ((("m1" .>> #28) .+ "m2") .+ (("m3" .& #0x0fffffff) .<< #28)) .+ "c0";
    (*1513*) "c1" <- "d1" .>> #56;
    (*1514*) "d2" <- ((("m3" .>> #28) .+ "m4") .+ (("m5" .& #0x0fffffff) .<< #28)) .+ "c1";
    (*1515*) "c2" <- "d2" .>> #56;
    (*1516*) "d3" <- ((("m5" .>> #28) .+ "m6") .+ (("m7" .& #0x0fffffff) .<< #28)) .+ "c2";
    (*1517*) "c3" <- "d3" .>> #56;
    (*1518*) "d4" <- ((("m7" .>> #28) .+ "m8") .+ ("m9" .<< #28)) .+ "c3";
    (*1520*) SSet "self" #0 ("d0" .& #0x00ffffffffffffff);
    (*1521*) SSet "self" #1 ("d1" .& #0x00ffffffffffffff);
    (*1522*) SSet "self" #2 ("d2" .& #0x00ffffffffffffff);
    (*1523*) SSet "self" #3 ("d3" .& #0x00ffffffffffffff);
    (*1524*) SSet "self" #4 ("d4") ]
    [].

(* src/field/mod_e255_19.rs:1527-1533  PrimeField  F::small_mul *)
Definition f_small_mul : func := mkfunc ["self"; "b"] [
    (*1528*) "out" <- "self";
    (*1530*) SCall [] "F::small_mul_assign" [AMut "out"; AVal "b"] ]
    [EVar "out"].

(* the function table of this file: every non-test function *)
Definition table : list (string * func) := [
  ("F::Debug::fmt", f_Debug_fmt);
  ("F::LowerHex::fmt", f_LowerHex_fmt);
  ("F::UpperHex::fmt", f_UpperHex_fmt);
  ("F::packed", f_packed);
  ("F::quartic_legendre", f_quartic_legendre);
  ("F::neg", f_neg);
  ("F::add_assign(&F)", f_add_assign_ref);
  ("F::add_assign(F)", f_add_assign_val);
  ("F::add_assign(i32)", f_add_assign_i32);
  ("F::add_assign(i16)", f_add_assign_i16);
  ("F::add_assign(i8)", f_add_assign_i8);
  ("(&F)::add(&F)", f_ref_add_ref);
  ("F::add(F)", f_add_val);
  ("i32::add(&F)", f_i32_add_ref);
  ("i16::add(&F)", f_i16_add_ref);
  ("i8::add(&F)", f_i8_add_ref);
  ("(&F)::add(i32)", f_ref_add_i32);
  ("(&F)::add(i16)", f_ref_add_i16);
  ("(&F)::add(i8)", f_ref_add_i8);
  ("F::add(i32)", f_add_i32);
  ("F::add(i16)", f_add_i16);
  ("F::add(i8)", f_add_i8);
  ("F::div_assign(&F)", f_div_assign_ref);
  ("F::div_assign(F)", f_div_assign_val);
  ("(&F)::div(&F)", f_ref_div_ref);
  ("F::div(F)", f_div_val);
  ("F::sub_assign(&F)", f_sub_assign_ref);
  ("F::sub_assign(F)", f_sub_assign_val);
  ("F::sub_assign(i32)", f_sub_assign_i32);
  ("F::sub_assign(i16)", f_sub_assign_i16);
  ("F::sub_assign(i8)", f_sub_assign_i8);
  ("F::sub(i32)", f_sub_i32);
  ("F::sub(i16)", f_sub_i16);
  ("F::sub(i8)", f_sub_i8);
  ("(&F)::sub(&F)", f_ref_sub_ref);
  ("F::sub(F)", f_sub_val);
  ("(&F)::sub(i32)", f_ref_sub_i32);
  ("(&F)::sub(i16)", f_ref_sub_i16);
  ("(&F)::sub(i8)", f_ref_sub_i8);
  ("F::mul_assign(i32)", f_mul_assign_i32);
  ("F::mul_assign(i16)", f_mul_assign_i16);
  ("F::mul_assign(i8)", f_mul_assign_i8);
  ("F::mul_assign(&F)", f_mul_assign_ref);
  ("F::mul_assign(F)", f_mul_assign_val);
  ("i32::mul(&F)", f_i32_mul_ref);
  ("i16::mul(&F)", f_i16_mul_ref);
  ("i8::mul(&F)", f_i8_mul_ref);
  ("(&F)::mul(i32)", f_ref_mul_i32);
  ("(&F)::mul(i16)", f_ref_mul_i16);
  ("(&F)::mul(i8)", f_ref_mul_i8);
  ("F::mul(i32)", f_mul_i32);
  ("F::mul(i16)", f_mul_i16);
  ("F::mul(i8)", f_mul_i8);
  ("(&F)::mul(&F)", f_ref_mul_ref);
  ("F::mul(F)", f_mul_val);
  ("F::rand", f_rand);
  ("F::unpack", f_unpack);
  ("F::unpacked", f_unpacked);
  ("F::pack", f_pack);
  ("F::pack_normalized", f_pack_normalized);
  ("F::nbytes", f_nbytes);
  ("F::normalize", f_normalize);
  ("F::normalize_self_eq", f_normalize_self_eq);
  ("F::normalize_eq", f_normalize_eq);
  ("Mask::fill", f_Mask_fill);
  ("Mask::filled", f_Mask_filled);
  ("F::fill", f_fill);
  ("F::filled", f_filled);
  ("F::nbits", f_nbits);
  ("F::bit_normalized", f_bit_normalized);
  ("F::bit", f_bit);
  ("F::normalize_bitand", f_normalize_bitand);
  ("F::normalize_self_bitand", f_normalize_self_bitand);
  ("F::normalized_bitand", f_normalized_bitand);
  ("F::normalize_bitor", f_normalize_bitor);
  ("F::normalize_self_bitor", f_normalize_self_bitor);
  ("F::normalized_bitor", f_normalized_bitor);
  ("F::zero", f_zero);
  ("F::one", f_one);
  ("F::m_one", f_m_one);
  ("F::modulus", f_modulus);
  ("F::square", f_square);
  ("F::squared", f_squared);
  ("F::invert", f_invert);
  ("F::inverted", f_inverted);
  ("F::legendre", f_legendre);
  ("F::sqrt", f_sqrt);
  ("F::small_add_assign", f_small_add_assign);
  ("F::small_add", f_small_add);
  ("F::small_sub_assign", f_small_sub_assign);
  ("F::small_sub", f_small_sub);
  ("F::small_mul_assign", f_small_mul_assign);
  ("F::small_mul", f_small_mul)].
