(* Generated by tools/rust2coq.py from src/field/mod_e222_117.rs -- do not edit.
   One definition per item; each statement is preceded by its source line. *)
From Coq Require Import ZArith List String.
From Verif Require Import Lang.
Import ListNotations LangNotations.
Local Open Scope Z_scope.
Local Open Scope string_scope.

(* src/field/mod_e222_117.rs:41 *)
Definition C_VAL : Z := 117.

(* src/field/mod_e222_117.rs:44-44 *)
Definition ZERO : list Z := [0; 0; 0; 0].

(* src/field/mod_e222_117.rs:47-47 *)
Definition ONE : list Z := [1; 0; 0; 0].

(* src/field/mod_e222_117.rs:50-52 *)
Definition M_ONE : list Z := [0x03ffffffffffff8a; 0x03ffffffffffffff; 0x03ffffffffffffff; 0x0000ffffffffffff].

(* src/field/mod_e222_117.rs:55-57 *)
Definition MODULUS : list Z := [0x03ffffffffffff8b; 0x03ffffffffffffff; 0x03ffffffffffffff; 0x0000ffffffffffff].

(* src/field/mod_e222_117.rs:61-61 *)
Definition E222_D : list Z := [0x27166; 0; 0; 0].

(* src/field/mod_e222_117.rs:65-67 *)
Definition E222_BASE_X : list Z := [0x036eb2bc3eb54e51; 0x005b41f08eb6acdc; 0x009e55c9768c3033; 0x000066c4aec55a8e].

(* src/field/mod_e222_117.rs:70-70 *)
Definition E222_BASE_Y : list Z := [0x1c; 0; 0; 0].

(* src/field/mod_e222_117.rs:74-76 *)
Definition E222_ORDER : list Z := [0x0002f31423598cbf; 0x03fdc32f257a4cbe; 0x03ffffffffffffff; 0x00003fffffffffff].

(* src/field/mod_e222_117.rs:120-122  inherent F::carry_out (one-line method, kept as a macro on its receiver) *)
Definition carry_out (self : expr) : expr := self.[#3] .>> #48.

(* src/field/mod_e222_117.rs:79-87  Debug  F::Debug::fmt *)
Definition f_Debug_fmt : func := mkfunc ["self"; "f"] [
    (*80*) SPushStr "f" "Mod_e222_117: [ ";
    (*80*) SPushHex "f" false false 64 ("self".[#0]);
    (*82*) SFor "i" #1 #4 [
      (*83*) SPushStr "f" ", ";
      (*83*) SPushHex "f" false false 64 ("self".["i"]) ];
    (*86*) SPushStr "f" " ]" ]
    [].

(* src/field/mod_e222_117.rs:91-100  LowerHex  F::LowerHex::fmt *)
Definition f_LowerHex_fmt : func := mkfunc ["self"; "f"] [
    (*92*) "cpy" <- "self";
    (*93*) SCall ["bytes"] "F::packed" [AMut "cpy"];
    (*95*) SFor "i" #0 #28 [
      (*96*) SPushHex "f" false true 8 ("bytes".[EUSub #27 "i"]) ] ]
    [].

(* src/field/mod_e222_117.rs:104-113  UpperHex  F::UpperHex::fmt *)
Definition f_UpperHex_fmt : func := mkfunc ["self"; "f"] [
    (*105*) "cpy" <- "self";
    (*106*) SCall ["bytes"] "F::packed" [AMut "cpy"];
    (*108*) SFor "i" #0 #28 [
      (*109*) SPushHex "f" true true 8 ("bytes".[EUSub #27 "i"]) ] ]
    [].

(* src/field/mod_e222_117.rs:126-130  inherent  F::packed *)
Definition f_packed : func := mkfunc ["self"] [
    (*127*) "out" <- ERep #0 28;
    (*128*) SCall [] "F::pack" [AMut "self"; AMut "out"] ]
    [EVar "out"].

(* src/field/mod_e222_117.rs:136-141  Neg  F::neg *)
Definition f_neg : func := mkfunc ["self"] [
    (*137*) "out" <- "self";
    (*139*) SCall [] "F::add_assign(&F)" [AMut "out"; AVal (ELit MODULUS)] ]
    [EVar "out"].

(* src/field/mod_e222_117.rs:145-169  AddAssign<&F>  F::add_assign(&F) *)
Definition f_add_assign_ref : func := mkfunc ["self"; "rhs"] [
    (*146*) "a0" <- "self".[#0];
    (*147*) "a1" <- "self".[#1];
    (*148*) "a2" <- "self".[#2];
    (*149*) "a3" <- ("self".[#3]) .& #0x0000ffffffffffff;
    (*151*) "b0" <- "rhs".[#0];
    (*152*) "b1" <- "rhs".[#1];
    (*153*) "b2" <- "rhs".[#2];
    (*154*) "b3" <- ("rhs".[#3]) .& #0x0000ffffffffffff;
    (*156*) "cin" <- (carry_out "self") .+ (carry_out "rhs");
    (*157*) "s0" <- ("a0" .+ "b0") .+ ("cin" .* (EInt C_VAL));
    (*158*) "c0" <- "s0" .>> #58;
    (*159*) "s1" <- ("a1" .+ "b1") .+ "c0";
    (*160*) "c1" <- "s1" .>> #58;
    (*161*) "s2" <- ("a2" .+ "b2") .+ "c1";
    (*162*) "c2" <- "s2" .>> #58;
    (*163*) "s3" <- ("a3" .+ "b3") .+ "c2";
    (*165*) SSet "self" #0 ("s0" .& #0x03ffffffffffffff);
    (*166*) SSet "self" #1 ("s1" .& #0x03ffffffffffffff);
    (*167*) SSet "self" #2 ("s2" .& #0x03ffffffffffffff);
    (*168*) SSet "self" #3 ("s3") ]
    [].

(* src/field/mod_e222_117.rs:173-175  AddAssign<F>  F::add_assign(F) *)
Definition f_add_assign_val : func := mkfunc ["self"; "rhs"] [
    (*174*) SCall [] "F::add_assign(&F)" [AMut "self"; AVal "rhs"] ]
    [].

(* src/field/mod_e222_117.rs:179-181  AddAssign<i32>  F::add_assign(i32) *)
Definition f_add_assign_i32 : func := mkfunc ["self"; "rhs"] [
    (*180*) SCall [] "F::small_add_assign" [AMut "self"; AVal "rhs"] ]
    [].

(* src/field/mod_e222_117.rs:185-187  AddAssign<i16>  F::add_assign(i16) *)
Definition f_add_assign_i16 : func := mkfunc ["self"; "rhs"] [
    (*186*) SCall [] "F::small_add_assign" [AMut "self"; AVal (ECast I32 "rhs")] ]
    [].

(* src/field/mod_e222_117.rs:191-193  AddAssign<i8>  F::add_assign(i8) *)
Definition f_add_assign_i8 : func := mkfunc ["self"; "rhs"] [
    (*192*) SCall [] "F::small_add_assign" [AMut "self"; AVal (ECast I32 "rhs")] ]
    [].

(* src/field/mod_e222_117.rs:199-203  Add<&F>  (&F)::add(&F) *)
Definition f_ref_add_ref : func := mkfunc ["self"; "a"] [
    (*200*) "out" <- "self";
    (*201*) SCall [] "F::add_assign(&F)" [AMut "out"; AVal "a"] ]
    [EVar "out"].

(* src/field/mod_e222_117.rs:209-211  Add<F>  F::add(F) *)
Definition f_add_val : func := mkfunc ["self"; "a"] [
    (*210*) SCall ["%1"] "(&F)::add(&F)" [AVal "self"; AVal "a"] ]
    [EVar "%1"].

(* src/field/mod_e222_117.rs:217-219  Add<&F>  i32::add(&F) *)
Definition f_i32_add_ref : func := mkfunc ["self"; "a"] [
    (*218*) SCall ["%1"] "F::small_add" [AVal "a"; AVal "self"] ]
    [EVar "%1"].

(* src/field/mod_e222_117.rs:225-227  Add<&F>  i16::add(&F) *)
Definition f_i16_add_ref : func := mkfunc ["self"; "a"] [
    (*226*) SCall ["%1"] "F::small_add" [AVal "a"; AVal (ECast I32 "self")] ]
    [EVar "%1"].

(* src/field/mod_e222_117.rs:233-235  Add<&F>  i8::add(&F) *)
Definition f_i8_add_ref : func := mkfunc ["self"; "a"] [
    (*234*) SCall ["%1"] "F::small_add" [AVal "a"; AVal (ECast I32 "self")] ]
    [EVar "%1"].

(* src/field/mod_e222_117.rs:241-243  Add<i32>  (&F)::add(i32) *)
Definition f_ref_add_i32 : func := mkfunc ["self"; "a"] [
    (*242*) SCall ["%1"] "F::small_add" [AVal "self"; AVal "a"] ]
    [EVar "%1"].

(* src/field/mod_e222_117.rs:249-251  Add<i16>  (&F)::add(i16) *)
Definition f_ref_add_i16 : func := mkfunc ["self"; "a"] [
    (*250*) SCall ["%1"] "F::small_add" [AVal "self"; AVal (ECast I32 "a")] ]
    [EVar "%1"].

(* src/field/mod_e222_117.rs:257-259  Add<i8>  (&F)::add(i8) *)
Definition f_ref_add_i8 : func := mkfunc ["self"; "a"] [
    (*258*) SCall ["%1"] "F::small_add" [AVal "self"; AVal (ECast I32 "a")] ]
    [EVar "%1"].

(* src/field/mod_e222_117.rs:265-267  Add<i32>  F::add(i32) *)
Definition f_add_i32 : func := mkfunc ["self"; "a"] [
    (*266*) SCall ["%1"] "(&F)::add(i32)" [AVal "self"; AVal "a"] ]
    [EVar "%1"].

(* src/field/mod_e222_117.rs:273-275  Add<i16>  F::add(i16) *)
Definition f_add_i16 : func := mkfunc ["self"; "a"] [
    (*274*) SCall ["%1"] "(&F)::add(i16)" [AVal "self"; AVal "a"] ]
    [EVar "%1"].

(* src/field/mod_e222_117.rs:281-283  Add<i8>  F::add(i8) *)
Definition f_add_i8 : func := mkfunc ["self"; "a"] [
    (*282*) SCall ["%1"] "(&F)::add(i8)" [AVal "self"; AVal "a"] ]
    [EVar "%1"].

(* src/field/mod_e222_117.rs:287-289  DivAssign<&F>  F::div_assign(&F) *)
Definition f_div_assign_ref : func := mkfunc ["self"; "rhs"] [
    (*288*) SCall ["%1"] "F::inverted" [AVal "rhs"];
    (*288*) SCall [] "F::mul_assign(&F)" [AMut "self"; AVal "%1"] ]
    [].

(* src/field/mod_e222_117.rs:293-295  DivAssign<F>  F::div_assign(F) *)
Definition f_div_assign_val : func := mkfunc ["self"; "rhs"] [
    (*294*) SCall [] "F::div_assign(&F)" [AMut "self"; AVal "rhs"] ]
    [].

(* src/field/mod_e222_117.rs:301-305  Div<&F>  (&F)::div(&F) *)
Definition f_ref_div_ref : func := mkfunc ["self"; "a"] [
    (*302*) "out" <- "self";
    (*303*) SCall [] "F::div_assign(&F)" [AMut "out"; AVal "a"] ]
    [EVar "out"].

(* src/field/mod_e222_117.rs:311-313  Div<F>  F::div(F) *)
Definition f_div_val : func := mkfunc ["self"; "a"] [
    (*312*) SCall ["%1"] "(&F)::div(&F)" [AVal "self"; AVal "a"] ]
    [EVar "%1"].

(* src/field/mod_e222_117.rs:317-341  SubAssign<&F>  F::sub_assign(&F) *)
Definition f_sub_assign_ref : func := mkfunc ["self"; "rhs"] [
    (*318*) "a0" <- "self".[#0];
    (*319*) "a1" <- "self".[#1];
    (*320*) "a2" <- "self".[#2];
    (*321*) "a3" <- ("self".[#3]) .& #0x0000ffffffffffff;
    (*323*) "b0" <- "rhs".[#0];
    (*324*) "b1" <- "rhs".[#1];
    (*325*) "b2" <- "rhs".[#2];
    (*326*) "b3" <- ("rhs".[#3]) .& #0x0000ffffffffffff;
    (*328*) "cin" <- (carry_out "self") .+ (carry_out "rhs");
    (*329*) "s0" <- ("a0" .- "b0") .+ ("cin" .* (EInt C_VAL));
    (*330*) "c0" <- "s0" .>> #58;
    (*331*) "s1" <- ("a1" .- "b1") .+ "c0";
    (*332*) "c1" <- "s1" .>> #58;
    (*333*) "s2" <- ("a2" .- "b2") .+ "c1";
    (*334*) "c2" <- "s2" .>> #58;
    (*335*) "s3" <- ("a3" .- "b3") .+ "c2";
    (*337*) SSet "self" #0 ("s0" .& #0x03ffffffffffffff);
    (*338*) SSet "self" #1 ("s1" .& #0x03ffffffffffffff);
    (*339*) SSet "self" #2 ("s2" .& #0x03ffffffffffffff);
    (*340*) SSet "self" #3 ("s3") ]
    [].

(* src/field/mod_e222_117.rs:345-347  SubAssign<F>  F::sub_assign(F) *)
Definition f_sub_assign_val : func := mkfunc ["self"; "rhs"] [
    (*346*) SCall [] "F::sub_assign(&F)" [AMut "self"; AVal "rhs"] ]
    [].

(* src/field/mod_e222_117.rs:351-353  SubAssign<i32>  F::sub_assign(i32) *)
Definition f_sub_assign_i32 : func := mkfunc ["self"; "rhs"] [
    (*352*) SCall [] "F::small_sub_assign" [AMut "self"; AVal "rhs"] ]
    [].

(* src/field/mod_e222_117.rs:357-359  SubAssign<i16>  F::sub_assign(i16) *)
Definition f_sub_assign_i16 : func := mkfunc ["self"; "rhs"] [
    (*358*) SCall [] "F::small_sub_assign" [AMut "self"; AVal (ECast I32 "rhs")] ]
    [].

(* src/field/mod_e222_117.rs:363-365  SubAssign<i8>  F::sub_assign(i8) *)
Definition f_sub_assign_i8 : func := mkfunc ["self"; "rhs"] [
    (*364*) SCall [] "F::small_sub_assign" [AMut "self"; AVal (ECast I32 "rhs")] ]
    [].

(* src/field/mod_e222_117.rs:371-373  Sub<i32>  F::sub(i32) *)
Definition f_sub_i32 : func := mkfunc ["self"; "a"] [
    (*372*) SCall ["%1"] "(&F)::sub(i32)" [AVal "self"; AVal "a"] ]
    [EVar "%1"].

(* src/field/mod_e222_117.rs:379-381  Sub<i16>  F::sub(i16) *)
Definition f_sub_i16 : func := mkfunc ["self"; "a"] [
    (*380*) SCall ["%1"] "(&F)::sub(i16)" [AVal "self"; AVal "a"] ]
    [EVar "%1"].

(* src/field/mod_e222_117.rs:387-389  Sub<i8>  F::sub(i8) *)
Definition f_sub_i8 : func := mkfunc ["self"; "a"] [
    (*388*) SCall ["%1"] "(&F)::sub(i8)" [AVal "self"; AVal "a"] ]
    [EVar "%1"].

(* src/field/mod_e222_117.rs:395-399  Sub<&F>  (&F)::sub(&F) *)
Definition f_ref_sub_ref : func := mkfunc ["self"; "a"] [
    (*396*) "out" <- "self";
    (*397*) SCall [] "F::sub_assign(&F)" [AMut "out"; AVal "a"] ]
    [EVar "out"].

(* src/field/mod_e222_117.rs:405-407  Sub<F>  F::sub(F) *)
Definition f_sub_val : func := mkfunc ["self"; "a"] [
    (*406*) SCall ["%1"] "(&F)::sub(&F)" [AVal "self"; AVal "a"] ]
    [EVar "%1"].

(* src/field/mod_e222_117.rs:413-415  Sub<i32>  (&F)::sub(i32) *)
Definition f_ref_sub_i32 : func := mkfunc ["self"; "a"] [
    (*414*) SCall ["%1"] "F::small_sub" [AVal "self"; AVal "a"] ]
    [EVar "%1"].

(* src/field/mod_e222_117.rs:421-423  Sub<i16>  (&F)::sub(i16) *)
Definition f_ref_sub_i16 : func := mkfunc ["self"; "a"] [
    (*422*) SCall ["%1"] "F::small_sub" [AVal "self"; AVal (ECast I32 "a")] ]
    [EVar "%1"].

(* src/field/mod_e222_117.rs:429-431  Sub<i8>  (&F)::sub(i8) *)
Definition f_ref_sub_i8 : func := mkfunc ["self"; "a"] [
    (*430*) SCall ["%1"] "F::small_sub" [AVal "self"; AVal (ECast I32 "a")] ]
    [EVar "%1"].

(* src/field/mod_e222_117.rs:435-437  MulAssign<i32>  F::mul_assign(i32) *)
Definition f_mul_assign_i32 : func := mkfunc ["self"; "rhs"] [
    (*436*) SCall [] "F::small_mul_assign" [AMut "self"; AVal "rhs"] ]
    [].

(* src/field/mod_e222_117.rs:441-443  MulAssign<i16>  F::mul_assign(i16) *)
Definition f_mul_assign_i16 : func := mkfunc ["self"; "rhs"] [
    (*442*) SCall [] "F::small_mul_assign" [AMut "self"; AVal (ECast I32 "rhs")] ]
    [].

(* src/field/mod_e222_117.rs:447-449  MulAssign<i8>  F::mul_assign(i8) *)
Definition f_mul_assign_i8 : func := mkfunc ["self"; "rhs"] [
    (*448*) SCall [] "F::small_mul_assign" [AMut "self"; AVal (ECast I32 "rhs")] ]
    [].

(* src/field/mod_e222_117.rs:453-648  MulAssign<&F>  F::mul_assign(&F) *)
Definition f_mul_assign_ref : func := mkfunc ["self"; "rhs"] [
    (*454*) "a0" <- ("self".[#0]) .& #0x1fffffff;
    (*455*) "a1" <- ("self".[#0]) .>> #29;
    (*456*) "a2" <- ("self".[#1]) .& #0x1fffffff;
    (*457*) "a3" <- ("self".[#1]) .>> #29;
    (*458*) "a4" <- ("self".[#2]) .& #0x1fffffff;
    (*459*) "a5" <- ("self".[#2]) .>> #29;
    (*460*) "a6" <- ("self".[#3]) .& #0x1fffffff;
    (*461*) "a7" <- ("self".[#3]) .>> #29;
    (*463*) "b0" <- ("rhs".[#0]) .& #0x1fffffff;
    (*464*) "b1" <- ("rhs".[#0]) .>> #29;
    (*465*) "b2" <- ("rhs".[#1]) .& #0x1fffffff;
    (*466*) "b3" <- ("rhs".[#1]) .>> #29;
    (*467*) "b4" <- ("rhs".[#2]) .& #0x1fffffff;
    (*468*) "b5" <- ("rhs".[#2]) .>> #29;
    (*469*) "b6" <- ("rhs".[#3]) .& #0x1fffffff;
    (*470*) "b7" <- ("rhs".[#3]) .>> #29;
    (*473*) "m_0_0" <- "a0" .* "b0";
    (*474*) "m_0_1" <- "a0" .* "b1";
    (*475*) "m_0_2" <- "a0" .* "b2";
    (*476*) "m_0_3" <- "a0" .* "b3";
    (*477*) "m_0_4" <- "a0" .* "b4";
    (*478*) "m_0_5" <- "a0" .* "b5";
    (*479*) "m_0_6" <- "a0" .* "b6";
    (*480*) "m_0_7" <- "a0" .* "b7";
    (*481*) "m_1_0" <- "a1" .* "b0";
    (*482*) "m_1_1" <- "a1" .* "b1";
    (*483*) "m_1_2" <- "a1" .* "b2";
    (*484*) "m_1_3" <- "a1" .* "b3";
    (*485*) "m_1_4" <- "a1" .* "b4";
    (*486*) "m_1_5" <- "a1" .* "b5";
    (*487*) "m_1_6" <- "a1" .* "b6";
    (*488*) "m_1_7" <- "a1" .* "b7";
    (*489*) "m_2_0" <- "a2" .* "b0";
    (*490*) "m_2_1" <- "a2" .* "b1";
    (*491*) "m_2_2" <- "a2" .* "b2";
    (*492*) "m_2_3" <- "a2" .* "b3";
    (*493*) "m_2_4" <- "a2" .* "b4";
    (*494*) "m_2_5" <- "a2" .* "b5";
    (*495*) "m_2_6" <- "a2" .* "b6";
    (*496*) "m_2_7" <- "a2" .* "b7";
    (*497*) "m_3_0" <- "a3" .* "b0";
    (*498*) "m_3_1" <- "a3" .* "b1";
    (*499*) "m_3_2" <- "a3" .* "b2";
    (*500*) "m_3_3" <- "a3" .* "b3";
    (*501*) "m_3_4" <- "a3" .* "b4";
    (*502*) "m_3_5" <- "a3" .* "b5";
    (*503*) "m_3_6" <- "a3" .* "b6";
    (*504*) "m_3_7" <- "a3" .* "b7";
    (*505*) "m_4_0" <- "a4" .* "b0";
    (*506*) "m_4_1" <- "a4" .* "b1";
    (*507*) "m_4_2" <- "a4" .* "b2";
    (*508*) "m_4_3" <- "a4" .* "b3";
    (*509*) "m_4_4" <- "a4" .* "b4";
    (*510*) "m_4_5" <- "a4" .* "b5";
    (*511*) "m_4_6" <- "a4" .* "b6";
    (*512*) "m_4_7" <- "a4" .* "b7";
    (*513*) "m_5_0" <- "a5" .* "b0";
    (*514*) "m_5_1" <- "a5" .* "b1";
    (*515*) "m_5_2" <- "a5" .* "b2";
    (*516*) "m_5_3" <- "a5" .* "b3";
    (*517*) "m_5_4" <- "a5" .* "b4";
    (*518*) "m_5_5" <- "a5" .* "b5";
    (*519*) "m_5_6" <- "a5" .* "b6";
    (*520*) "m_5_7" <- "a5" .* "b7";
    (*521*) "m_6_0" <- "a6" .* "b0";
    (*522*) "m_6_1" <- "a6" .* "b1";
    (*523*) "m_6_2" <- "a6" .* "b2";
    (*524*) "m_6_3" <- "a6" .* "b3";
    (*525*) "m_6_4" <- "a6" .* "b4";
    (*526*) "m_6_5" <- "a6" .* "b5";
    (*527*) "m_6_6" <- "a6" .* "b6";
    (*528*) "m_6_7" <- "a6" .* "b7";
    (*529*) "m_7_0" <- "a7" .* "b0";
    (*530*) "m_7_1" <- "a7" .* "b1";
    (*531*) "m_7_2" <- "a7" .* "b2";
    (*532*) "m_7_3" <- "a7" .* "b3";
    (*533*) "m_7_4" <- "a7" .* "b4";
    (*534*) "m_7_5" <- "a7" .* "b5";
    (*535*) "m_7_6" <- "a7" .* "b6";
    (*536*) "m_7_7" <- "a7" .* "b7";
    (*539*) "d0" <- ("m_0_0" .+ (("m_0_1" .& #0x1fffffff) .<< #29)) .+ (("m_1_0" .& #0x1fffffff) .<< #29);
    (*541*) "c0" <- "d0" .>> #58;
    (*542*) "d1" <- ((((((((("m_0_1" .>> #29) .+ "m_0_2") .+ (("m_0_3" .& #0x1fffffff) .<< #29)) .+ ("m_1_0" .>> #29)) .+ "m_1_1") .+ (("m_1_2" .& #0x1fffffff) .<< #29)) .+ "m_2_0") .+ (("m_2_1" .& #0x1fffffff) .<< #29)) .+ (("m_3_0" .& #0x1fffffff) .<< #29)) .+ "c0";
    (*546*) "c1" <- "d1" .>> #58;
    (*547*) "d2" <- ((((((((((((((("m_0_3" .>> #29) .+ "m_0_4") .+ (("m_0_5" .& #0x1fffffff) .<< #29)) .+ ("m_1_2" .>> #29)) .+ "m_1_3") .+ (("m_1_4" .& #0x1fffffff) .<< #29)) .+ ("m_2_1" .>> #29)) .+ "m_2_2") .+ (("m_2_3" .& #0x1fffffff) .<< #29)) .+ ("m_3_0" .>> #29)) .+ "m_3_1") .+ (("m_3_2" .& #0x1fffffff) .<< #29)) .+ "m_4_0") .+ (("m_4_1" .& #0x1fffffff) .<< #29)) .+ (("m_5_0" .& #0x1fffffff) .<< #29)) .+ "c1";
    (*553*) "c2" <- "d2" .>> #58;
    (*554*) "d3" <- ((((((((((((((((((((("m_0_5" .>> #29) .+ "m_0_6") .+ (("m_0_7" .& #0x1fffffff) .<< #29)) .+ ("m_1_4" .>> #29)) .+ "m_1_5") .+ (("m_1_6" .& #0x1fffffff) .<< #29)) .+ ("m_2_3" .>> #29)) .+ "m_2_4") .+ (("m_2_5" .& #0x1fffffff) .<< #29)) .+ ("m_3_2" .>> #29)) .+ "m_3_3") .+ (("m_3_4" .& #0x1fffffff) .<< #29)) .+ ("m_4_1" .>> #29)) .+ "m_4_2") .+ (("m_4_3" .& #0x1fffffff) .<< #29)) .+ ("m_5_0" .>> #29)) .+ "m_5_1") .+ (("m_5_2" .& #0x1fffffff) .<< #29)) .+ "m_6_0") .+ (("m_6_1" .& #0x1fffffff) .<< #29)) .+ (("m_7_0" .& #0x1fffffff) .<< #29)) .+ "c2";
    (*562*) "c3" <- "d3" .>> #58;
    (*563*) "d4" <- ((((((((((((((((((((("m_0_7" .>> #29) .+ ("m_1_6" .>> #29)) .+ "m_1_7") .+ ("m_2_5" .>> #29)) .+ "m_2_6") .+ (("m_2_7" .& #0x1fffffff) .<< #29)) .+ ("m_3_4" .>> #29)) .+ "m_3_5") .+ (("m_3_6" .& #0x1fffffff) .<< #29)) .+ ("m_4_3" .>> #29)) .+ "m_4_4") .+ (("m_4_5" .& #0x1fffffff) .<< #29)) .+ ("m_5_2" .>> #29)) .+ "m_5_3") .+ (("m_5_4" .& #0x1fffffff) .<< #29)) .+ ("m_6_1" .>> #29)) .+ "m_6_2") .+ (("m_6_3" .& #0x1fffffff) .<< #29)) .+ ("m_7_0" .>> #29)) .+ "m_7_1") .+ (("m_7_2" .& #0x1fffffff) .<< #29)) .+ "c3";
    (*572*) "c4" <- "d4" .>> #58;
    (*573*) "d5" <- ((((((((((((((("m_2_7" .>> #29) .+ ("m_3_6" .>> #29)) .+ "m_3_7") .+ ("m_4_5" .>> #29)) .+ "m_4_6") .+ (("m_4_7" .& #0x1fffffff) .<< #29)) .+ ("m_5_4" .>> #29)) .+ "m_5_5") .+ (("m_5_6" .& #0x1fffffff) .<< #29)) .+ ("m_6_3" .>> #29)) .+ "m_6_4") .+ (("m_6_5" .& #0x1fffffff) .<< #29)) .+ ("m_7_2" .>> #29)) .+ "m_7_3") .+ (("m_7_4" .& #0x1fffffff) .<< #29)) .+ "c4";
    (*580*) "c5" <- "d5" .>> #58;
    (*581*) "d6" <- ((((((((("m_4_7" .>> #29) .+ ("m_5_6" .>> #29)) .+ "m_5_7") .+ ("m_6_5" .>> #29)) .+ "m_6_6") .+ (("m_6_7" .& #0x1fffffff) .<< #29)) .+ ("m_7_4" .>> #29)) .+ "m_7_5") .+ (("m_7_6" .& #0x1fffffff) .<< #29)) .+ "c5";
    (*586*) "c6" <- "d6" .>> #58;
    (*587*) "d7" <- ((("m_6_7" .>> #29) .+ ("m_7_6" .>> #29)) .+ "m_7_7") .+ "c6";
    (*594*) "l0_0" <- "d0" .& #0x03ffffffffffffff;
    (*595*) "l1_0" <- "d1" .& #0x03ffffffffffffff;
    (*596*) "l2_0" <- "d2" .& #0x03ffffffffffffff;
    (*597*) "l3_0" <- "d3" .& #0x0000ffffffffffff;
    (*600*) "h0_0" <- (("d3" .& #0x03ffffffffffffff) .>> #48) .| (("d4" .& #0x000000000007ffff) .<< #10);
    (*602*) "h1_0" <- ("d4" .& #0x0000fffffff80000) .>> #19;
    (*603*) "h2_0" <- (("d4" .& #0x03ff000000000000) .>> #48) .| (("d5" .& #0x000000000007ffff) .<< #10);
    (*605*) "h3_0" <- ("d5" .& #0x0000fffffff80000) .>> #19;
    (*606*) "h4_0" <- (("d5" .& #0x03ff000000000000) .>> #48) .| (("d6" .& #0x000000000007ffff) .<< #10);
    (*608*) "h5_0" <- ("d6" .& #0x0000fffffff80000) .>> #19;
    (*609*) "h6_0" <- (("d6" .& #0x03ff000000000000) .>> #48) .| (("d7" .& #0x000000000007ffff) .<< #10);
    (*611*) "h7_0" <- "d7" .>> #19;
    (*614*) "hc0_0" <- "h0_0" .* (EInt C_VAL);
    (*615*) "hc1_0" <- "h1_0" .* (EInt C_VAL);
    (*616*) "hc2_0" <- "h2_0" .* (EInt C_VAL);
    (*617*) "hc3_0" <- "h3_0" .* (EInt C_VAL);
    (*618*) "hc4_0" <- "h4_0" .* (EInt C_VAL);
    (*619*) "hc5_0" <- "h5_0" .* (EInt C_VAL);
    (*620*) "hc6_0" <- "h6_0" .* (EInt C_VAL);
    (*621*) "hc7_0" <- "h7_0" .* (EInt C_VAL);
    (*623*) "hm0_0" <- "hc0_0" .+ (("hc1_0" .& #0x1fffffff) .<< #29);
    (*624*) "hmk0_0" <- "hm0_0" .>> #58;
    (*625*) "hm1_0" <- ((("hc1_0" .>> #29) .+ "hc2_0") .+ (("hc3_0" .& #0x1fffffff) .<< #29)) .+ "hmk0_0";
    (*627*) "hmk1_0" <- "hm1_0" .>> #58;
    (*628*) "hm2_0" <- ((("hc3_0" .>> #29) .+ "hc4_0") .+ (("hc5_0" .& #0x1fffffff) .<< #29)) .+ "hmk1_0";
    (*630*) "hmk2_0" <- "hm2_0" .>> #58;
    (*631*) "hm3_0" <- ((("hc5_0" .>> #29) .+ "hc6_0") .+ (("hc7_0" .& #0x1fffffff) .<< #29)) .+ "hmk2_0";
    (*635*) "kin_0" <- "hm3_0" .>> #48;
    (*636*) "s0_0" <- ("l0_0" .+ ("hm0_0" .& #0x03ffffffffffffff)) .+ ("kin_0" .* (EInt C_VAL));
    (*637*) "k0_0" <- "s0_0" .>> #58;
    (*638*) "s1_0" <- ("l1_0" .+ ("hm1_0" .& #0x03ffffffffffffff)) .+ "k0_0";
    (*639*) "k1_0" <- "s1_0" .>> #58;
    (*640*) "s2_0" <- ("l2_0" .+ ("hm2_0" .& #0x03ffffffffffffff)) .+ "k1_0";
    (*641*) "k2_0" <- "s2_0" .>> #58;
    (*642*) "s3_0" <- ("l3_0" .+ ("hm3_0" .& #0x0000ffffffffffff)) .+ "k2_0";
    (*644*) SSet "self" #0 ("s0_0" .& #0x03ffffffffffffff);
    (*645*) SSet "self" #1 ("s1_0" .& #0x03ffffffffffffff);
    (*646*) SSet "self" #2 ("s2_0" .& #0x03ffffffffffffff);
    (*647*) SSet "self" #3 ("s3_0") ]
    [].

(* src/field/mod_e222_117.rs:652-654  MulAssign<F>  F::mul_assign(F) *)
Definition f_mul_assign_val : func := mkfunc ["self"; "rhs"] [
    (*653*) SCall [] "F::mul_assign(&F)" [AMut "self"; AVal "rhs"] ]
    [].

(* src/field/mod_e222_117.rs:660-662  Mul<&F>  i32::mul(&F) *)
Definition f_i32_mul_ref : func := mkfunc ["self"; "a"] [
    (*661*) SCall ["%1"] "F::small_mul" [AVal "a"; AVal "self"] ]
    [EVar "%1"].

(* src/field/mod_e222_117.rs:668-670  Mul<&F>  i16::mul(&F) *)
Definition f_i16_mul_ref : func := mkfunc ["self"; "a"] [
    (*669*) SCall ["%1"] "F::small_mul" [AVal "a"; AVal (ECast I32 "self")] ]
    [EVar "%1"].

(* src/field/mod_e222_117.rs:676-678  Mul<&F>  i8::mul(&F) *)
Definition f_i8_mul_ref : func := mkfunc ["self"; "a"] [
    (*677*) SCall ["%1"] "F::small_mul" [AVal "a"; AVal (ECast I32 "self")] ]
    [EVar "%1"].

(* src/field/mod_e222_117.rs:684-686  Mul<i32>  (&F)::mul(i32) *)
Definition f_ref_mul_i32 : func := mkfunc ["self"; "a"] [
    (*685*) SCall ["%1"] "F::small_mul" [AVal "self"; AVal "a"] ]
    [EVar "%1"].

(* src/field/mod_e222_117.rs:692-694  Mul<i16>  (&F)::mul(i16) *)
Definition f_ref_mul_i16 : func := mkfunc ["self"; "a"] [
    (*693*) SCall ["%1"] "F::small_mul" [AVal "self"; AVal (ECast I32 "a")] ]
    [EVar "%1"].

(* src/field/mod_e222_117.rs:700-702  Mul<i8>  (&F)::mul(i8) *)
Definition f_ref_mul_i8 : func := mkfunc ["self"; "a"] [
    (*701*) SCall ["%1"] "F::small_mul" [AVal "self"; AVal (ECast I32 "a")] ]
    [EVar "%1"].

(* src/field/mod_e222_117.rs:708-710  Mul<i32>  F::mul(i32) *)
Definition f_mul_i32 : func := mkfunc ["self"; "a"] [
    (*709*) SCall ["%1"] "(&F)::mul(i32)" [AVal "self"; AVal "a"] ]
    [EVar "%1"].

(* src/field/mod_e222_117.rs:716-718  Mul<i16>  F::mul(i16) *)
Definition f_mul_i16 : func := mkfunc ["self"; "a"] [
    (*717*) SCall ["%1"] "(&F)::mul(i16)" [AVal "self"; AVal "a"] ]
    [EVar "%1"].

(* src/field/mod_e222_117.rs:724-726  Mul<i8>  F::mul(i8) *)
Definition f_mul_i8 : func := mkfunc ["self"; "a"] [
    (*725*) SCall ["%1"] "(&F)::mul(i8)" [AVal "self"; AVal "a"] ]
    [EVar "%1"].

(* src/field/mod_e222_117.rs:732-736  Mul<&F>  (&F)::mul(&F) *)
Definition f_ref_mul_ref : func := mkfunc ["self"; "a"] [
    (*733*) "out" <- "self";
    (*734*) SCall [] "F::mul_assign(&F)" [AMut "out"; AVal "a"] ]
    [EVar "out"].

(* src/field/mod_e222_117.rs:742-744  Mul<F>  F::mul(F) *)
Definition f_mul_val : func := mkfunc ["self"; "a"] [
    (*743*) SCall ["%1"] "(&F)::mul(&F)" [AVal "self"; AVal "a"] ]
    [EVar "%1"].

(* src/field/mod_e222_117.rs:748-756  Rand  F::rand *)
Definition f_rand : func := mkfunc ["rng"] [
    (*749*) "out" <- ERep #0 4;
    (*751*) SFor "i" #0 #4 [
      (*752*) SGenRange "%1" "rng" #0 ((ELit MODULUS).["i"]);
      (*752*) SSet "out" "i" ("%1") ] ]
    [EVar "out"].

(* src/field/mod_e222_117.rs:760-792  Pack  F::unpack *)
Definition f_unpack : func := mkfunc ["self"; "bytes"] [
    (*761*) SSet "self" #0 (((((((((ECast I64 ("bytes".[#0])) .& #0x00000000000000ff) .| (((ECast I64 ("bytes".[#1])) .<< #8) .& #0x000000000000ff00)) .| (((ECast I64 ("bytes".[#2])) .<< #16) .& #0x0000000000ff0000)) .| (((ECast I64 ("bytes".[#3])) .<< #24) .& #0x00000000ff000000)) .| (((ECast I64 ("bytes".[#4])) .<< #32) .& #0x000000ff00000000)) .| (((ECast I64 ("bytes".[#5])) .<< #40) .& #0x0000ff0000000000)) .| (((ECast I64 ("bytes".[#6])) .<< #48) .& #0x00ff000000000000)) .| (((ECast I64 ("bytes".[#7])) .<< #56) .& #0x0300000000000000));
    (*769*) SSet "self" #1 ((((((((((ECast I64 ("bytes".[#7])) .>> #2) .& #0x000000000000003f) .| (((ECast I64 ("bytes".[#8])) .<< #6) .& #0x0000000000003fc0)) .| (((ECast I64 ("bytes".[#9])) .<< #14) .& #0x00000000003fc000)) .| (((ECast I64 ("bytes".[#10])) .<< #22) .& #0x000000003fc00000)) .| (((ECast I64 ("bytes".[#11])) .<< #30) .& #0x0000003fc0000000)) .| (((ECast I64 ("bytes".[#12])) .<< #38) .& #0x00003fc000000000)) .| (((ECast I64 ("bytes".[#13])) .<< #46) .& #0x003fc00000000000)) .| (((ECast I64 ("bytes".[#14])) .<< #54) .& #0x03c0000000000000));
    (*777*) SSet "self" #2 ((((((((((ECast I64 ("bytes".[#14])) .>> #4) .& #0x000000000000000f) .| (((ECast I64 ("bytes".[#15])) .<< #4) .& #0x0000000000000ff0)) .| (((ECast I64 ("bytes".[#16])) .<< #12) .& #0x00000000000ff000)) .| (((ECast I64 ("bytes".[#17])) .<< #20) .& #0x000000000ff00000)) .| (((ECast I64 ("bytes".[#18])) .<< #28) .& #0x0000000ff0000000)) .| (((ECast I64 ("bytes".[#19])) .<< #36) .& #0x00000ff000000000)) .| (((ECast I64 ("bytes".[#20])) .<< #44) .& #0x000ff00000000000)) .| (((ECast I64 ("bytes".[#21])) .<< #52) .& #0x03f0000000000000));
    (*785*) SSet "self" #3 (((((((((ECast I64 ("bytes".[#21])) .>> #6) .& #0x0000000000000003) .| (((ECast I64 ("bytes".[#22])) .<< #2) .& #0x00000000000003fc)) .| (((ECast I64 ("bytes".[#23])) .<< #10) .& #0x000000000003fc00)) .| (((ECast I64 ("bytes".[#24])) .<< #18) .& #0x0000000003fc0000)) .| (((ECast I64 ("bytes".[#25])) .<< #26) .& #0x00000003fc000000)) .| (((ECast I64 ("bytes".[#26])) .<< #34) .& #0x000003fc00000000)) .| (((ECast I64 ("bytes".[#27])) .<< #42) .& #0x0000fc0000000000)) ]
    [].

(* src/field/mod_e222_117.rs:794-798  Pack  F::unpacked *)
Definition f_unpacked : func := mkfunc ["bytes"] [
    (*795*) "out" <- ELit ZERO;
    (*796*) SCall [] "F::unpack" [AMut "out"; AVal "bytes"] ]
    [EVar "out"].

(* src/field/mod_e222_117.rs:800-803  Pack  F::pack *)
Definition f_pack : func := mkfunc ["self"; "bytes"] [
    (*801*) SCall [] "F::normalize" [AMut "self"];
    (*802*) SCall [] "F::pack_normalized" [AVal "self"; AMut "bytes"] ]
    [].

(* src/field/mod_e222_117.rs:805-837  Pack  F::pack_normalized *)
Definition f_pack_normalized : func := mkfunc ["self"; "bytes"] [
    (*806*) SSet "bytes" #0 (ECast U8 (("self".[#0]) .& #255));
    (*807*) SSet "bytes" #1 (ECast U8 ((("self".[#0]) .>> #8) .& #255));
    (*808*) SSet "bytes" #2 (ECast U8 ((("self".[#0]) .>> #16) .& #255));
    (*809*) SSet "bytes" #3 (ECast U8 ((("self".[#0]) .>> #24) .& #255));
    (*810*) SSet "bytes" #4 (ECast U8 ((("self".[#0]) .>> #32) .& #255));
    (*811*) SSet "bytes" #5 (ECast U8 ((("self".[#0]) .>> #40) .& #255));
    (*812*) SSet "bytes" #6 (ECast U8 ((("self".[#0]) .>> #48) .& #255));
    (*813*) SSet "bytes" #7 ((ECast U8 ((("self".[#0]) .>> #56) .& #3)) .| (ECast U8 ((("self".[#1]) .<< #2) .& #252)));
    (*815*) SSet "bytes" #8 (ECast U8 ((("self".[#1]) .>> #6) .& #255));
    (*816*) SSet "bytes" #9 (ECast U8 ((("self".[#1]) .>> #14) .& #255));
    (*817*) SSet "bytes" #10 (ECast U8 ((("self".[#1]) .>> #22) .& #255));
    (*818*) SSet "bytes" #11 (ECast U8 ((("self".[#1]) .>> #30) .& #255));
    (*819*) SSet "bytes" #12 (ECast U8 ((("self".[#1]) .>> #38) .& #255));
    (*820*) SSet "bytes" #13 (ECast U8 ((("self".[#1]) .>> #46) .& #255));
    (*821*) SSet "bytes" #14 ((ECast U8 ((("self".[#1]) .>> #54) .& #15)) .| (ECast U8 ((("self".[#2]) .<< #4) .& #240)));
    (*823*) SSet "bytes" #15 (ECast U8 ((("self".[#2]) .>> #4) .& #255));
    (*824*) SSet "bytes" #16 (ECast U8 ((("self".[#2]) .>> #12) .& #255));
    (*825*) SSet "bytes" #17 (ECast U8 ((("self".[#2]) .>> #20) .& #255));
    (*826*) SSet "bytes" #18 (ECast U8 ((("self".[#2]) .>> #28) .& #255));
    (*827*) SSet "bytes" #19 (ECast U8 ((("self".[#2]) .>> #36) .& #255));
    (*828*) SSet "bytes" #20 (ECast U8 ((("self".[#2]) .>> #44) .& #255));
    (*829*) SSet "bytes" #21 ((ECast U8 ((("self".[#2]) .>> #52) .& #63)) .| (ECast U8 ((("self".[#3]) .<< #6) .& #192)));
    (*831*) SSet "bytes" #22 (ECast U8 ((("self".[#3]) .>> #2) .& #255));
    (*832*) SSet "bytes" #23 (ECast U8 ((("self".[#3]) .>> #10) .& #255));
    (*833*) SSet "bytes" #24 (ECast U8 ((("self".[#3]) .>> #18) .& #255));
    (*834*) SSet "bytes" #25 (ECast U8 ((("self".[#3]) .>> #26) .& #255));
    (*835*) SSet "bytes" #26 (ECast U8 ((("self".[#3]) .>> #34) .& #255));
    (*836*) SSet "bytes" #27 (ECast U8 ((("self".[#3]) .>> #42) .& #63)) ]
    [].

(* src/field/mod_e222_117.rs:839-841  Pack  F::nbytes *)
Definition f_nbytes : func := mkfunc [] [
 ]
    [#28].

(* src/field/mod_e222_117.rs:845-849  Normalize  F::normalize *)
Definition f_normalize : func := mkfunc ["self"] [
    (*846*) SCall ["plusc"] "(&F)::add(i32)" [AVal "self"; AVal (ECast I32 (EInt C_VAL))];
    (*847*) SCall ["offset"] "(&F)::mul(i32)" [AVal (ELit MODULUS); AVal (ECast I32 (carry_out "plusc"))];
    (*848*) SCall [] "F::sub_assign(&F)" [AMut "self"; AVal "offset"] ]
    [].

(* src/field/mod_e222_117.rs:853-864  NormalizeEq  F::normalize_self_eq *)
Definition f_normalize_self_eq : func := mkfunc ["self"; "other"] [
    (*854*) "are_equal" <- #1;
    (*856*) SCall [] "F::normalize" [AMut "self"];
    (*858*) "are_equal" <- "are_equal" .& (EEq ("self".[#0]) ("other".[#0]));
    (*859*) "are_equal" <- "are_equal" .& (EEq ("self".[#1]) ("other".[#1]));
    (*860*) "are_equal" <- "are_equal" .& (EEq ("self".[#2]) ("other".[#2]));
    (*861*) "are_equal" <- "are_equal" .& (EEq ("self".[#3]) ("other".[#3])) ]
    [EVar "are_equal"].

(* src/field/mod_e222_117.rs:866-869  NormalizeEq  F::normalize_eq *)
Definition f_normalize_eq : func := mkfunc ["self"; "other"] [
    (*867*) SCall [] "F::normalize" [AMut "other"];
    (*868*) SCall ["%1"] "F::normalize_self_eq" [AMut "self"; AVal "other"] ]
    [EVar "%1"].

(* src/field/mod_e222_117.rs:873-887  PrimeFieldMask  Mask::fill *)
Definition f_Mask_fill : func := mkfunc ["self"; "bit"] [
    (*874*) "mask" <- ECast I64 "bit";
    (*876*) "mask" <- "mask" .| ("mask" .<< #1);
    (*877*) "mask" <- "mask" .| ("mask" .<< #2);
    (*878*) "mask" <- "mask" .| ("mask" .<< #4);
    (*879*) "mask" <- "mask" .| ("mask" .<< #8);
    (*880*) "mask" <- "mask" .| ("mask" .<< #16);
    (*881*) "mask" <- "mask" .| ("mask" .<< #32);
    (*883*) SSet "self" #0 ("mask");
    (*884*) SSet "self" #1 ("mask");
    (*885*) SSet "self" #2 ("mask");
    (*886*) SSet "self" #3 ("mask") ]
    [].

(* src/field/mod_e222_117.rs:889-900  PrimeFieldMask  Mask::filled *)
Definition f_Mask_filled : func := mkfunc ["bit"] [
    (*890*) "mask" <- ECast I64 "bit";
    (*892*) "mask" <- "mask" .| ("mask" .<< #1);
    (*893*) "mask" <- "mask" .| ("mask" .<< #2);
    (*894*) "mask" <- "mask" .| ("mask" .<< #4);
    (*895*) "mask" <- "mask" .| ("mask" .<< #8);
    (*896*) "mask" <- "mask" .| ("mask" .<< #16);
    (*897*) "mask" <- "mask" .| ("mask" .<< #32) ]
    [ERep "mask" 4].

(* src/field/mod_e222_117.rs:904-918  PrimeField  F::fill *)
Definition f_fill : func := mkfunc ["self"; "bit"] [
    (*905*) "mask" <- ECast I64 "bit";
    (*907*) "mask" <- "mask" .| ("mask" .<< #1);
    (*908*) "mask" <- "mask" .| ("mask" .<< #2);
    (*909*) "mask" <- "mask" .| ("mask" .<< #4);
    (*910*) "mask" <- "mask" .| ("mask" .<< #8);
    (*911*) "mask" <- "mask" .| ("mask" .<< #16);
    (*912*) "mask" <- "mask" .| ("mask" .<< #32);
    (*914*) SSet "self" #0 ("mask");
    (*915*) SSet "self" #1 ("mask");
    (*916*) SSet "self" #2 ("mask");
    (*917*) SSet "self" #3 ("mask") ]
    [].

(* src/field/mod_e222_117.rs:920-931  PrimeField  F::filled *)
Definition f_filled : func := mkfunc ["bit"] [
    (*921*) "mask" <- ECast I64 "bit";
    (*923*) "mask" <- "mask" .| ("mask" .<< #1);
    (*924*) "mask" <- "mask" .| ("mask" .<< #2);
    (*925*) "mask" <- "mask" .| ("mask" .<< #4);
    (*926*) "mask" <- "mask" .| ("mask" .<< #8);
    (*927*) "mask" <- "mask" .| ("mask" .<< #16);
    (*928*) "mask" <- "mask" .| ("mask" .<< #32) ]
    [ERep "mask" 4].

(* src/field/mod_e222_117.rs:933-933  PrimeField  F::nbits *)
Definition f_nbits : func := mkfunc [] [
 ]
    [#222].

(* src/field/mod_e222_117.rs:935-940  PrimeField  F::bit_normalized *)
Definition f_bit_normalized : func := mkfunc ["self"; "idx"] [
    (*936*) "byte" <- EUDiv "idx" #58;
    (*937*) "bit" <- EURem "idx" #58 ]
    [EEq ((("self".["byte"]) .>> "bit") .& #0x1) #0x1].

(* src/field/mod_e222_117.rs:942-945  PrimeField  F::bit *)
Definition f_bit : func := mkfunc ["self"; "idx"] [
    (*943*) SCall [] "F::normalize" [AMut "self"];
    (*944*) SCall ["%1"] "F::bit_normalized" [AVal "self"; AVal "idx"] ]
    [EVar "%1"].

(* src/field/mod_e222_117.rs:947-950  PrimeField  F::normalize_bitand *)
Definition f_normalize_bitand : func := mkfunc ["self"; "rhs"] [
    (*948*) SCall [] "F::normalize" [AMut "rhs"];
    (*949*) SCall [] "F::normalize_self_bitand" [AMut "self"; AVal "rhs"] ]
    [].

(* src/field/mod_e222_117.rs:952-955  PrimeField  F::normalize_self_bitand *)
Definition f_normalize_self_bitand : func := mkfunc ["self"; "rhs"] [
    (*953*) SCall [] "F::normalize" [AMut "self"];
    (*954*) SCall [] "F::normalized_bitand" [AMut "self"; AVal "rhs"] ]
    [].

(* src/field/mod_e222_117.rs:957-962  PrimeField  F::normalized_bitand *)
Definition f_normalized_bitand : func := mkfunc ["self"; "rhs"] [
    (*958*) SSet "self" #0 (("self".[#0]) .& ("rhs".[#0]));
    (*959*) SSet "self" #1 (("self".[#1]) .& ("rhs".[#1]));
    (*960*) SSet "self" #2 (("self".[#2]) .& ("rhs".[#2]));
    (*961*) SSet "self" #3 (("self".[#3]) .& ("rhs".[#3])) ]
    [].

(* src/field/mod_e222_117.rs:964-967  PrimeField  F::normalize_bitor *)
Definition f_normalize_bitor : func := mkfunc ["self"; "rhs"] [
    (*965*) SCall [] "F::normalize" [AMut "rhs"];
    (*966*) SCall [] "F::normalize_self_bitor" [AMut "self"; AVal "rhs"] ]
    [].

(* src/field/mod_e222_117.rs:969-972  PrimeField  F::normalize_self_bitor *)
Definition f_normalize_self_bitor : func := mkfunc ["self"; "rhs"] [
    (*970*) SCall [] "F::normalize" [AMut "self"];
    (*971*) SCall [] "F::normalized_bitor" [AMut "self"; AVal "rhs"] ]
    [].

(* src/field/mod_e222_117.rs:974-979  PrimeField  F::normalized_bitor *)
Definition f_normalized_bitor : func := mkfunc ["self"; "rhs"] [
    (*975*) SSet "self" #0 (("self".[#0]) .| ("rhs".[#0]));
    (*976*) SSet "self" #1 (("self".[#1]) .| ("rhs".[#1]));
    (*977*) SSet "self" #2 (("self".[#2]) .| ("rhs".[#2]));
    (*978*) SSet "self" #3 (("self".[#3]) .| ("rhs".[#3])) ]
    [].

(* src/field/mod_e222_117.rs:981-983  PrimeField  F::zero *)
Definition f_zero : func := mkfunc [] [
 ]
    [ELit ZERO].

(* src/field/mod_e222_117.rs:985-987  PrimeField  F::one *)
Definition f_one : func := mkfunc [] [
 ]
    [ELit ONE].

(* src/field/mod_e222_117.rs:989-991  PrimeField  F::m_one *)
Definition f_m_one : func := mkfunc [] [
 ]
    [ELit M_ONE].

(* src/field/mod_e222_117.rs:993-995  PrimeField  F::modulus *)
Definition f_modulus : func := mkfunc [] [
 ]
    [ELit MODULUS].

(* src/field/mod_e222_117.rs:997-1183  PrimeField  F::square *)
Definition f_square : func := mkfunc ["self"] [
    (*998*) "a0" <- ("self".[#0]) .& #0x1fffffff;
    (*999*) "a1" <- ("self".[#0]) .>> #29;
    (*1000*) "a2" <- ("self".[#1]) .& #0x1fffffff;
    (*1001*) "a3" <- ("self".[#1]) .>> #29;
    (*1002*) "a4" <- ("self".[#2]) .& #0x1fffffff;
    (*1003*) "a5" <- ("self".[#2]) .>> #29;
    (*1004*) "a6" <- ("self".[#3]) .& #0x1fffffff;
    (*1005*) "a7" <- ("self".[#3]) .>> #29;
    (*1008*) "m_0_0" <- "a0" .* "a0";
    (*1009*) "m_0_1" <- "a0" .* "a1";
    (*1010*) "m_0_2" <- "a0" .* "a2";
    (*1011*) "m_0_3" <- "a0" .* "a3";
    (*1012*) "m_0_4" <- "a0" .* "a4";
    (*1013*) "m_0_5" <- "a0" .* "a5";
    (*1014*) "m_0_6" <- "a0" .* "a6";
    (*1015*) "m_0_7" <- "a0" .* "a7";
    (*1016*) "m_1_0" <- "m_0_1";
    (*1017*) "m_1_1" <- "a1" .* "a1";
    (*1018*) "m_1_2" <- "a1" .* "a2";
    (*1019*) "m_1_3" <- "a1" .* "a3";
    (*1020*) "m_1_4" <- "a1" .* "a4";
    (*1021*) "m_1_5" <- "a1" .* "a5";
    (*1022*) "m_1_6" <- "a1" .* "a6";
    (*1023*) "m_1_7" <- "a1" .* "a7";
    (*1024*) "m_2_0" <- "m_0_2";
    (*1025*) "m_2_1" <- "m_1_2";
    (*1026*) "m_2_2" <- "a2" .* "a2";
    (*1027*) "m_2_3" <- "a2" .* "a3";
    (*1028*) "m_2_4" <- "a2" .* "a4";
    (*1029*) "m_2_5" <- "a2" .* "a5";
    (*1030*) "m_2_6" <- "a2" .* "a6";
    (*1031*) "m_2_7" <- "a2" .* "a7";
    (*1032*) "m_3_0" <- "m_0_3";
    (*1033*) "m_3_1" <- "m_1_3";
    (*1034*) "m_3_2" <- "m_2_3";
    (*1035*) "m_3_3" <- "a3" .* "a3";
    (*1036*) "m_3_4" <- "a3" .* "a4";
    (*1037*) "m_3_5" <- "a3" .* "a5";
    (*1038*) "m_3_6" <- "a3" .* "a6";
    (*1039*) "m_3_7" <- "a3" .* "a7";
    (*1040*) "m_4_0" <- "m_0_4";
    (*1041*) "m_4_1" <- "m_1_4";
    (*1042*) "m_4_2" <- "m_2_4";
    (*1043*) "m_4_3" <- "m_3_4";
    (*1044*) "m_4_4" <- "a4" .* "a4";
    (*1045*) "m_4_5" <- "a4" .* "a5";
    (*1046*) "m_4_6" <- "a4" .* "a6";
    (*1047*) "m_4_7" <- "a4" .* "a7";
    (*1048*) "m_5_0" <- "m_0_5";
    (*1049*) "m_5_1" <- "m_1_5";
    (*1050*) "m_5_2" <- "m_2_5";
    (*1051*) "m_5_3" <- "m_3_5";
    (*1052*) "m_5_4" <- "m_4_5";
    (*1053*) "m_5_5" <- "a5" .* "a5";
    (*1054*) "m_5_6" <- "a5" .* "a6";
    (*1055*) "m_5_7" <- "a5" .* "a7";
    (*1056*) "m_6_0" <- "m_0_6";
    (*1057*) "m_6_1" <- "m_1_6";
    (*1058*) "m_6_2" <- "m_2_6";
    (*1059*) "m_6_3" <- "m_3_6";
    (*1060*) "m_6_4" <- "m_4_6";
    (*1061*) "m_6_5" <- "m_5_6";
    (*1062*) "m_6_6" <- "a6" .* "a6";
    (*1063*) "m_6_7" <- "a6" .* "a7";
    (*1064*) "m_7_0" <- "m_0_7";
    (*1065*) "m_7_1" <- "m_1_7";
    (*1066*) "m_7_2" <- "m_2_7";
    (*1067*) "m_7_3" <- "m_3_7";
    (*1068*) "m_7_4" <- "m_4_7";
    (*1069*) "m_7_5" <- "m_5_7";
    (*1070*) "m_7_6" <- "m_6_7";
    (*1071*) "m_7_7" <- "a7" .* "a7";
    (*1074*) "d0" <- ("m_0_0" .+ (("m_0_1" .& #0x1fffffff) .<< #29)) .+ (("m_1_0" .& #0x1fffffff) .<< #29);
    (*1076*) "c0" <- "d0" .>> #58;
    (*1077*) "d1" <- ((((((((("m_0_1" .>> #29) .+ "m_0_2") .+ (("m_0_3" .& #0x1fffffff) .<< #29)) .+ ("m_1_0" .>> #29)) .+ "m_1_1") .+ (("m_1_2" .& #0x1fffffff) .<< #29)) .+ "m_2_0") .+ (("m_2_1" .& #0x1fffffff) .<< #29)) .+ (("m_3_0" .& #0x1fffffff) .<< #29)) .+ "c0";
    (*1081*) "c1" <- "d1" .>> #58;
    (*1082*) "d2" <- ((((((((((((((("m_0_3" .>> #29) .+ "m_0_4") .+ (("m_0_5" .& #0x1fffffff) .<< #29)) .+ ("m_1_2" .>> #29)) .+ "m_1_3") .+ (("m_1_4" .& #0x1fffffff) .<< #29)) .+ ("m_2_1" .>> #29)) .+ "m_2_2") .+ (("m_2_3" .& #0x1fffffff) .<< #29)) .+ ("m_3_0" .>> #29)) .+ "m_3_1") .+ (("m_3_2" .& #0x1fffffff) .<< #29)) .+ "m_4_0") .+ (("m_4_1" .& #0x1fffffff) .<< #29)) .+ (("m_5_0" .& #0x1fffffff) .<< #29)) .+ "c1";
    (*1088*) "c2" <- "d2" .>> #58;
    (*1089*) "d3" <- ((((((((((((((((((((("m_0_5" .>> #29) .+ "m_0_6") .+ (("m_0_7" .& #0x1fffffff) .<< #29)) .+ ("m_1_4" .>> #29)) .+ "m_1_5") .+ (("m_1_6" .& #0x1fffffff) .<< #29)) .+ ("m_2_3" .>> #29)) .+ "m_2_4") .+ (("m_2_5" .& #0x1fffffff) .<< #29)) .+ ("m_3_2" .>> #29)) .+ "m_3_3") .+ (("m_3_4" .& #0x1fffffff) .<< #29)) .+ ("m_4_1" .>> #29)) .+ "m_4_2") .+ (("m_4_3" .& #0x1fffffff) .<< #29)) .+ ("m_5_0" .>> #29)) .+ "m_5_1") .+ (("m_5_2" .& #0x1fffffff) .<< #29)) .+ "m_6_0") .+ (("m_6_1" .& #0x1fffffff) .<< #29)) .+ (("m_7_0" .& #0x1fffffff) .<< #29)) .+ "c2";
    (*1097*) "c3" <- "d3" .>> #58;
    (*1098*) "d4" <- ((((((((((((((((((((("m_0_7" .>> #29) .+ ("m_1_6" .>> #29)) .+ "m_1_7") .+ ("m_2_5" .>> #29)) .+ "m_2_6") .+ (("m_2_7" .& #0x1fffffff) .<< #29)) .+ ("m_3_4" .>> #29)) .+ "m_3_5") .+ (("m_3_6" .& #0x1fffffff) .<< #29)) .+ ("m_4_3" .>> #29)) .+ "m_4_4") .+ (("m_4_5" .& #0x1fffffff) .<< #29)) .+ ("m_5_2" .>> #29)) .+ "m_5_3") .+ (("m_5_4" .& #0x1fffffff) .<< #29)) .+ ("m_6_1" .>> #29)) .+ "m_6_2") .+ (("m_6_3" .& #0x1fffffff) .<< #29)) .+ ("m_7_0" .>> #29)) .+ "m_7_1") .+ (("m_7_2" .& #0x1fffffff) .<< #29)) .+ "c3";
    (*1107*) "c4" <- "d4" .>> #58;
    (*1108*) "d5" <- ((((((((((((((("m_2_7" .>> #29) .+ ("m_3_6" .>> #29)) .+ "m_3_7") .+ ("m_4_5" .>> #29)) .+ "m_4_6") .+ (("m_4_7" .& #0x1fffffff) .<< #29)) .+ ("m_5_4" .>> #29)) .+ "m_5_5") .+ (("m_5_6" .& #0x1fffffff) .<< #29)) .+ ("m_6_3" .>> #29)) .+ "m_6_4") .+ (("m_6_5" .& #0x1fffffff) .<< #29)) .+ ("m_7_2" .>> #29)) .+ "m_7_3") .+ (("m_7_4" .& #0x1fffffff) .<< #29)) .+ "c4";
    (*1115*) "c5" <- "d5" .>> #58;
    (*1116*) "d6" <- ((((((((("m_4_7" .>> #29) .+ ("m_5_6" .>> #29)) .+ "m_5_7") .+ ("m_6_5" .>> #29)) .+ "m_6_6") .+ (("m_6_7" .& #0x1fffffff) .<< #29)) .+ ("m_7_4" .>> #29)) .+ "m_7_5") .+ (("m_7_6" .& #0x1fffffff) .<< #29)) .+ "c5";
    (*1121*) "c6" <- "d6" .>> #58;
    (*1122*) "d7" <- ((("m_6_7" .>> #29) .+ ("m_7_6" .>> #29)) .+ "m_7_7") .+ "c6";
    (*1129*) "l0_0" <- "d0" .& #0x03ffffffffffffff;
    (*1130*) "l1_0" <- "d1" .& #0x03ffffffffffffff;
    (*1131*) "l2_0" <- "d2" .& #0x03ffffffffffffff;
    (*1132*) "l3_0" <- "d3" .& #0x0000ffffffffffff;
    (*1135*) "h0_0" <- (("d3" .& #0x03ffffffffffffff) .>> #48) .| (("d4" .& #0x000000000007ffff) .<< #10);
    (*1137*) "h1_0" <- ("d4" .& #0x0000fffffff80000) .>> #19;
    (*1138*) "h2_0" <- (("d4" .& #0x03ff000000000000) .>> #48) .| (("d5" .& #0x000000000007ffff) .<< #10);
    (*1140*) "h3_0" <- ("d5" .& #0x0000fffffff80000) .>> #19;
    (*1141*) "h4_0" <- (("d5" .& #0x03ff000000000000) .>> #48) .| (("d6" .& #0x000000000007ffff) .<< #10);
    (*1143*) "h5_0" <- ("d6" .& #0x0000fffffff80000) .>> #19;
    (*1144*) "h6_0" <- (("d6" .& #0x03ff000000000000) .>> #48) .| (("d7" .& #0x000000000007ffff) .<< #10);
    (*1146*) "h7_0" <- "d7" .>> #19;
    (*1149*) "hc0_0" <- "h0_0" .* (EInt C_VAL);
    (*1150*) "hc1_0" <- "h1_0" .* (EInt C_VAL);
    (*1151*) "hc2_0" <- "h2_0" .* (EInt C_VAL);
    (*1152*) "hc3_0" <- "h3_0" .* (EInt C_VAL);
    (*1153*) "hc4_0" <- "h4_0" .* (EInt C_VAL);
    (*1154*) "hc5_0" <- "h5_0" .* (EInt C_VAL);
    (*1155*) "hc6_0" <- "h6_0" .* (EInt C_VAL);
    (*1156*) "hc7_0" <- "h7_0" .* (EInt C_VAL);
    (*1158*) "hm0_0" <- "hc0_0" .+ (("hc1_0" .& #0x1fffffff) .<< #29);
    (*1159*) "hmk0_0" <- "hm0_0" .>> #58;
    (*1160*) "hm1_0" <- ((("hc1_0" .>> #29) .+ "hc2_0") .+ (("hc3_0" .& #0x1fffffff) .<< #29)) .+ "hmk0_0";
    (*1162*) "hmk1_0" <- "hm1_0" .>> #58;
    (*1163*) "hm2_0" <- ((("hc3_0" .>> #29) .+ "hc4_0") .+ (("hc5_0" .& #0x1fffffff) .<< #29)) .+ "hmk1_0";
    (*1165*) "hmk2_0" <- "hm2_0" .>> #58;
    (*1166*) "hm3_0" <- ((("hc5_0" .>> #29) .+ "hc6_0") .+ (("hc7_0" .& #0x1fffffff) .<< #29)) .+ "hmk2_0";
    (*1170*) "kin_0" <- "hm3_0" .>> #48;
    (*1171*) "s0_0" <- ("l0_0" .+ ("hm0_0" .& #0x03ffffffffffffff)) .+ ("kin_0" .* (EInt C_VAL));
    (*1172*) "k0_0" <- "s0_0" .>> #58;
    (*1173*) "s1_0" <- ("l1_0" .+ ("hm1_0" .& #0x03ffffffffffffff)) .+ "k0_0";
    (*1174*) "k1_0" <- "s1_0" .>> #58;
    (*1175*) "s2_0" <- ("l2_0" .+ ("hm2_0" .& #0x03ffffffffffffff)) .+ "k1_0";
    (*1176*) "k2_0" <- "s2_0" .>> #58;
    (*1177*) "s3_0" <- ("l3_0" .+ ("hm3_0" .& #0x0000ffffffffffff)) .+ "k2_0";
    (*1179*) SSet "self" #0 ("s0_0" .& #0x03ffffffffffffff);
    (*1180*) SSet "self" #1 ("s1_0" .& #0x03ffffffffffffff);
    (*1181*) SSet "self" #2 ("s2_0" .& #0x03ffffffffffffff);
    (*1182*) SSet "self" #3 ("s3_0") ]
    [].

(* src/field/mod_e222_117.rs:1185-1191  PrimeField  F::squared *)
Definition f_squared : func := mkfunc ["self"] [
    (*1186*) "out" <- "self";
    (*1188*) SCall [] "F::square" [AMut "out"] ]
    [EVar "out"].

(* src/field/mod_e222_117.rs:1193-1215  PrimeField  F::invert *)
Definition f_invert : func := mkfunc ["self"] [
    (*1195*) "sqval" <- "self";
    (*1198*) SCall [] "F::square" [AMut "sqval"];
    (*1199*) SCall [] "F::square" [AMut "sqval"];
    (*1202*) SCall [] "F::square" [AMut "sqval"];
    (*1203*) SCall [] "F::mul_assign(&F)" [AMut "self"; AVal "sqval"];
    (*1206*) SCall [] "F::square" [AMut "sqval"];
    (*1207*) SCall [] "F::square" [AMut "sqval"];
    (*1208*) SCall [] "F::square" [AMut "sqval"];
    (*1211*) SFor "_" #7 #222 [
      (*1212*) SCall [] "F::square" [AMut "sqval"];
      (*1213*) SCall [] "F::mul_assign(&F)" [AMut "self"; AVal "sqval"] ] ]
    [].

(* src/field/mod_e222_117.rs:1217-1223  PrimeField  F::inverted *)
Definition f_inverted : func := mkfunc ["self"] [
    (*1218*) "out" <- "self";
    (*1220*) SCall [] "F::invert" [AMut "out"] ]
    [EVar "out"].

(* src/field/mod_e222_117.rs:1225-1249  PrimeField  F::legendre *)
Definition f_legendre : func := mkfunc ["self"] [
    (*1227*) "out" <- "self";
    (*1228*) "sqval" <- "out";
    (*1231*) SCall [] "F::square" [AMut "sqval"];
    (*1234*) SCall [] "F::square" [AMut "sqval"];
    (*1235*) SCall [] "F::mul_assign(&F)" [AMut "out"; AVal "sqval"];
    (*1238*) SCall [] "F::square" [AMut "sqval"];
    (*1239*) SCall [] "F::square" [AMut "sqval"];
    (*1240*) SCall [] "F::square" [AMut "sqval"];
    (*1243*) SFor "_" #6 #221 [
      (*1244*) SCall [] "F::square" [AMut "sqval"];
      (*1245*) SCall [] "F::mul_assign(&F)" [AMut "out"; AVal "sqval"] ] ]
    [EVar "out"].

(* src/field/mod_e222_117.rs:1251-1272  PrimeField  F::sqrt *)
Definition f_sqrt : func := mkfunc ["self"] [
    (*1253*) "out" <- "self";
    (*1254*) "sqval" <- "out";
    (*1257*) SCall [] "F::square" [AMut "sqval"];
    (*1258*) SCall [] "F::mul_assign(&F)" [AMut "out"; AVal "sqval"];
    (*1261*) SCall [] "F::square" [AMut "sqval"];
    (*1262*) SCall [] "F::square" [AMut "sqval"];
    (*1263*) SCall [] "F::square" [AMut "sqval"];
    (*1266*) SFor "_" #5 #220 [
      (*1267*) SCall [] "F::square" [AMut "sqval"];
      (*1268*) SCall [] "F::mul_assign(&F)" [AMut "out"; AVal "sqval"] ] ]
    [EVar "out"].

(* src/field/mod_e222_117.rs:1274-1295  PrimeField  F::small_add_assign *)
Definition f_small_add_assign : func := mkfunc ["self"; "rhs"] [
    (*1275*) "a0" <- "self".[#0];
    (*1276*) "a1" <- "self".[#1];
    (*1277*) "a2" <- "self".[#2];
    (*1278*) "a3" <- ("self".[#3]) .& #0x0000ffffffffffff;
    (*1280*) "b" <- ECast I64 "rhs";
    (*1282*) "cin" <- carry_out "self";
    (*1283*) "s0" <- ("a0" .+ "b") .+ ("cin" .* (EInt C_VAL));
    (*1284*) "c0" <- "s0" .>> #58;
    (*1285*) "s1" <- "a1" .+ "c0";
    (*1286*) "c1" <- "s1" .>> #58;
    (*1287*) "s2" <- "a2" .+ "c1";
    (*1288*) "c2" <- "s2" .>> #58;
    (*1289*) "s3" <- "a3" .+ "c2";
    (*1291*) SSet "self" #0 ("s0" .& #0x03ffffffffffffff);
    (*1292*) SSet "self" #1 ("s1" .& #0x03ffffffffffffff);
    (*1293*) SSet "self" #2 ("s2" .& #0x03ffffffffffffff);
    (*1294*) SSet "self" #3 ("s3") ]
    [].

(* src/field/mod_e222_117.rs:1297-1303  PrimeField  F::small_add *)
Definition f_small_add : func := mkfunc ["self"; "rhs"] [
    (*1298*) "out" <- "self";
    (*1300*) SCall [] "F::small_add_assign" [AMut "out"; AVal "rhs"] ]
    [EVar "out"].

(* src/field/mod_e222_117.rs:1305-1326  PrimeField  F::small_sub_assign *)
Definition f_small_sub_assign : func := mkfunc ["self"; "rhs"] [
    (*1306*) "a0" <- "self".[#0];
    (*1307*) "a1" <- "self".[#1];
    (*1308*) "a2" <- "self".[#2];
    (*1309*) "a3" <- ("self".[#3]) .& #0x0000ffffffffffff;
    (*1311*) "b" <- ECast I64 "rhs";
    (*1313*) "cin" <- carry_out "self";
    (*1314*) "s0" <- ("a0" .- "b") .+ ("cin" .* (EInt C_VAL));
    (*1315*) "c0" <- "s0" .>> #58;
    (*1316*) "s1" <- "a1" .+ "c0";
    (*1317*) "c1" <- "s1" .>> #58;
    (*1318*) "s2" <- "a2" .+ "c1";
    (*1319*) "c2" <- "s2" .>> #58;
    (*1320*) "s3" <- "a3" .+ "c2";
    (*1322*) SSet "self" #0 ("s0" .& #0x03ffffffffffffff);
    (*1323*) SSet "self" #1 ("s1" .& #0x03ffffffffffffff);
    (*1324*) SSet "self" #2 ("s2" .& #0x03ffffffffffffff);
    (*1325*) SSet "self" #3 ("s3") ]
    [].

(* src/field/mod_e222_117.rs:1328-1334  PrimeField  F::small_sub *)
Definition f_small_sub : func := mkfunc ["self"; "rhs"] [
    (*1329*) "out" <- "self";
    (*1331*) SCall [] "F::small_sub_assign" [AMut "out"; AVal "rhs"] ]
    [EVar "out"].

(* src/field/mod_e222_117.rs:1336-1370  PrimeField  F::small_mul_assign *)
Definition f_small_mul_assign : func := mkfunc ["self"; "rhs"] [
    (*1337*) "a0" <- ("self".[#0]) .& #0x1fffffff;
    (*1338*) "a1" <- ("self".[#0]) .>> #29;
    (*1339*) "a2" <- ("self".[#1]) .& #0x1fffffff;
    (*1340*) "a3" <- ("self".[#1]) .>> #29;
    (*1341*) "a4" <- ("self".[#2]) .& #0x1fffffff;
    (*1342*) "a5" <- ("self".[#2]) .>> #29;
    (*1343*) "a6" <- ("self".[#3]) .& #0x1fffffff;
    (*1344*) "a7" <- ("self".[#3]) .>> #29;
    (*1346*) "b" <- ECast I64 "rhs";
    (*1348*) "m0" <- "a0" .* "b";
    (*1349*) "m1" <- "a1" .* "b";
    (*1350*) "m2" <- "a2" .* "b";
    (*1351*) "m3" <- "a3" .* "b";
    (*1352*) "m4" <- "a4" .* "b";
    (*1353*) "m5" <- "a5" .* "b";
    (*1354*) "m6" <- "a6" .* "b";
    (*1355*) "m7" <- "a7" .* "b";
    (*1357*) "cin" <- carry_out "self";
    (*1358*) "d0" <- ("m0" .+ (("m1" .& #0x1fffffff) .<< #29)) .+ ("cin" .* (EInt C_VAL));
    (*1359*) "c0" <- "d0" .>> #58;
    (*1360*) "d1" <- ((("m1" .>> #29) .+ "m2") .+ (("m3" .& #0x1fffffff) .<< #29)) .+ "c0";
    (*1361*) "c1" <- "d1" .>> #58;
    (*1362*) "d2" <- ((("m3" .>> #29) .+ "m4") .+ (("m5" .& #0x1fffffff) .<< #29)) .+ "c1";
    (*1363*) "c2" <- "d2" .>> #58;
    (*1364*) "d3" <- ((("m5" .>> #29) .+ "m6") .+ ("m7" .<< #29)) .+ "c2";
    (*1366*) SSet "self" #0 ("d0" .& #0x03ffffffffffffff);
    (*1367*) SSet "self" #1 ("d1" .& #0x03ffffffffffffff);
    (*1368*) SSet "self" #2 ("d2" .& #0x03ffffffffffffff);
    (*1369*) SSet "self" #3 ("d3") ]
    [].

(* src/field/mod_e222_117.rs:1372-1378  PrimeField  F::small_mul *)
Definition f_small_mul : func := mkfunc ["self"; "b"] [
    (*1373*) "out" <- "self";
    (*1375*) SCall [] "F::small_mul_assign" [AMut "out"; AVal "b"] ]
    [EVar "out"].

(* the function table of this file: every non-test function *)
Definition table : list (string * func) := [
  ("F::Debug::fmt", f_Debug_fmt);
  ("F::LowerHex::fmt", f_LowerHex_fmt);
  ("F::UpperHex::fmt", f_UpperHex_fmt);
  ("F::packed", f_packed);
  ("F::neg", f_neg);
  ("F::add_assign(&F)", f_add_assign_ref);
  ("F::add_assign(F)", f_add_assign_val);
  ("F::add_assign(i32)", f_add_assign_i32);
  ("F::add_assign(i16)", f_add_assign_i16);
  ("F::add_assign(i8)", f_add_assign_i8);
  ("(&F)::add(&F)", f_ref_add_ref);
  ("F::add(F)", f_add_val);
  ("i32::add(&F)", f_i32_add_ref);
  ("i16::add(&F)", f_i16_add_ref);
  ("i8::add(&F)", f_i8_add_ref);
  ("(&F)::add(i32)", f_ref_add_i32);
  ("(&F)::add(i16)", f_ref_add_i16);
  ("(&F)::add(i8)", f_ref_add_i8);
  ("F::add(i32)", f_add_i32);
  ("F::add(i16)", f_add_i16);
  ("F::add(i8)", f_add_i8);
  ("F::div_assign(&F)", f_div_assign_ref);
  ("F::div_assign(F)", f_div_assign_val);
  ("(&F)::div(&F)", f_ref_div_ref);
  ("F::div(F)", f_div_val);
  ("F::sub_assign(&F)", f_sub_assign_ref);
  ("F::sub_assign(F)", f_sub_assign_val);
  ("F::sub_assign(i32)", f_sub_assign_i32);
  ("F::sub_assign(i16)", f_sub_assign_i16);
  ("F::sub_assign(i8)", f_sub_assign_i8);
  ("F::sub(i32)", f_sub_i32);
  ("F::sub(i16)", f_sub_i16);
  ("F::sub(i8)", f_sub_i8);
  ("(&F)::sub(&F)", f_ref_sub_ref);
  ("F::sub(F)", f_sub_val);
  ("(&F)::sub(i32)", f_ref_sub_i32);
  ("(&F)::sub(i16)", f_ref_sub_i16);
  ("(&F)::sub(i8)", f_ref_sub_i8);
  ("F::mul_assign(i32)", f_mul_assign_i32);
  ("F::mul_assign(i16)", f_mul_assign_i16);
  ("F::mul_assign(i8)", f_mul_assign_i8);
  ("F::mul_assign(&F)", f_mul_assign_ref);
  ("F::mul_assign(F)", f_mul_assign_val);
  ("i32::mul(&F)", f_i32_mul_ref);
  ("i16::mul(&F)", f_i16_mul_ref);
  ("i8::mul(&F)", f_i8_mul_ref);
  ("(&F)::mul(i32)", f_ref_mul_i32);
  ("(&F)::mul(i16)", f_ref_mul_i16);
  ("(&F)::mul(i8)", f_ref_mul_i8);
  ("F::mul(i32)", f_mul_i32);
  ("F::mul(i16)", f_mul_i16);
  ("F::mul(i8)", f_mul_i8);
  ("(&F)::mul(&F)", f_ref_mul_ref);
  ("F::mul(F)", f_mul_val);
  ("F::rand", f_rand);
  ("F::unpack", f_unpack);
  ("F::unpacked", f_unpacked);
  ("F::pack", f_pack);
  ("F::pack_normalized", f_pack_normalized);
  ("F::nbytes", f_nbytes);
  ("F::normalize", f_normalize);
  ("F::normalize_self_eq", f_normalize_self_eq);
  ("F::normalize_eq", f_normalize_eq);
  ("Mask::fill", f_Mask_fill);
  ("Mask::filled", f_Mask_filled);
  ("F::fill", f_fill);
  ("F::filled", f_filled);
  ("F::nbits", f_nbits);
  ("F::bit_normalized", f_bit_normalized);
  ("F::bit", f_bit);
  ("F::normalize_bitand", f_normalize_bitand);
  ("F::normalize_self_bitand", f_normalize_self_bitand);
  ("F::normalized_bitand", f_normalized_bitand);
  ("F::normalize_bitor", f_normalize_bitor);
  ("F::normalize_self_bitor", f_normalize_self_bitor);
  ("F::normalized_bitor", f_normalized_bitor);
  ("F::zero", f_zero);
  ("F::one", f_one);
  ("F::m_one", f_m_one);
  ("F::modulus", f_modulus);
  ("F::square", f_square);
  ("F::squared", f_squared);
  ("F::invert", f_invert);
  ("F::inverted", f_inverted);
  ("F::legendre", f_legendre);
  ("F::sqrt", f_sqrt);
  ("F::small_add_assign", f_small_add_assign);
  ("F::small_add", f_small_add);
  ("F::small_sub_assign", f_small_sub_assign);
  ("F::small_sub", f_small_sub);
  ("F::small_mul_assign", f_small_mul_assign);
  ("F::small_mul", f_small_mul)].
