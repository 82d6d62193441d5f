(* Generated by tools/rust2coq.py from src/field/mod_e521_1.rs -- do not edit.
   One definition per item; each statement is preceded by its source line. *)
From Coq Require Import ZArith List String.
From Verif Require Import Lang.
Import ListNotations LangNotations.
Local Open Scope Z_scope.
Local Open Scope string_scope.

(* src/field/mod_e521_1.rs:42-42 *)
Definition ZERO : list Z := [0; 0; 0; 0; 0; 0; 0; 0; 0; 0].

(* src/field/mod_e521_1.rs:45-45 *)
Definition ONE : list Z := [1; 0; 0; 0; 0; 0; 0; 0; 0; 0].

(* src/field/mod_e521_1.rs:47 *)
Definition C_VAL : Z := 1.

(* src/field/mod_e521_1.rs:50-55 *)
Definition M_ONE : list Z := [0x003ffffffffffffe; 0x003fffffffffffff; 0x003fffffffffffff; 0x003fffffffffffff; 0x003fffffffffffff; 0x003fffffffffffff; 0x003fffffffffffff; 0x003fffffffffffff; 0x003fffffffffffff; 0x00000007ffffffff].

(* src/field/mod_e521_1.rs:58-63 *)
Definition MODULUS : list Z := [0x003fffffffffffff; 0x003fffffffffffff; 0x003fffffffffffff; 0x003fffffffffffff; 0x003fffffffffffff; 0x003fffffffffffff; 0x003fffffffffffff; 0x003fffffffffffff; 0x003fffffffffffff; 0x00000007ffffffff].

(* src/field/mod_e521_1.rs:67-72 *)
Definition E521_D : list Z := [0x003ffffffffa4331; 0x003fffffffffffff; 0x003fffffffffffff; 0x003fffffffffffff; 0x003fffffffffffff; 0x003fffffffffffff; 0x003fffffffffffff; 0x003fffffffffffff; 0x003fffffffffffff; 0x00000007ffffffff].

(* src/field/mod_e521_1.rs:76-81 *)
Definition E521_BASE_X : list Z := [0x002a940a2f19ba6c; 0x002c4cd920e2a8c0; 0x0028fc99c6059d0f; 0x00090d2c6ba52755; 0x003913f6ecc5ccc7; 0x00322fcf27031880; 0x003d9f42fc6c818e; 0x002c8a5aca1e28ef; 0x0008648b189df90c; 0x00000001d4b2d171].

(* src/field/mod_e521_1.rs:84-85 *)
Definition E521_BASE_Y : list Z := [0xc; 0; 0; 0; 0; 0; 0; 0; 0; 0].

(* src/field/mod_e521_1.rs:89-94 *)
Definition E521_ORDER : list Z := [0x002a2435f5180d6b; 0x00115a6a3c7d1503; 0x0027ec53f04fbd8c; 0x003f217dcdae2bd7; 0x003ffd15b6c64746; 0x003fffffffffffff; 0x003fffffffffffff; 0x003fffffffffffff; 0x003fffffffffffff; 0x00000001ffffffff].

(* src/field/mod_e521_1.rs:138-140  inherent F::carry_out (one-line method, kept as a macro on its receiver) *)
Definition carry_out (self : expr) : expr := self.[#9] .>> #35.

(* src/field/mod_e521_1.rs:97-105  Debug  F::Debug::fmt *)
Definition f_Debug_fmt : func := mkfunc ["self"; "f"] [
    (*98*) SPushStr "f" "Mod_e521_1: [ ";
    (*98*) SPushHex "f" false false 64 ("self".[#0]);
    (*100*) SFor "i" #1 #10 [
      (*101*) SPushStr "f" ", ";
      (*101*) SPushHex "f" false false 64 ("self".["i"]) ];
    (*104*) SPushStr "f" " ]" ]
    [].

(* src/field/mod_e521_1.rs:109-118  LowerHex  F::LowerHex::fmt *)
Definition f_LowerHex_fmt : func := mkfunc ["self"; "f"] [
    (*110*) "cpy" <- "self";
    (*111*) SCall ["bytes"] "F::packed" [AMut "cpy"];
    (*113*) SFor "i" #0 #66 [
      (*114*) SPushHex "f" false true 8 ("bytes".[EUSub #65 "i"]) ] ]
    [].

(* src/field/mod_e521_1.rs:122-131  UpperHex  F::UpperHex::fmt *)
Definition f_UpperHex_fmt : func := mkfunc ["self"; "f"] [
    (*123*) "cpy" <- "self";
    (*124*) SCall ["bytes"] "F::packed" [AMut "cpy"];
    (*126*) SFor "i" #0 #66 [
      (*127*) SPushHex "f" true true 8 ("bytes".[EUSub #65 "i"]) ] ]
    [].

(* src/field/mod_e521_1.rs:144-148  inherent  F::packed *)
Definition f_packed : func := mkfunc ["self"] [
    (*145*) "out" <- ERep #0 66;
    (*146*) SCall [] "F::pack" [AMut "self"; AMut "out"] ]
    [EVar "out"].

(* src/field/mod_e521_1.rs:154-159  Neg  F::neg *)
Definition f_neg : func := mkfunc ["self"] [
    (*155*) "out" <- "self";
    (*157*) SCall [] "F::add_assign(&F)" [AMut "out"; AVal (ELit MODULUS)] ]
    [EVar "out"].

(* src/field/mod_e521_1.rs:163-217  AddAssign<&F>  F::add_assign(&F) *)
Definition f_add_assign_ref : func := mkfunc ["self"; "rhs"] [
    (*164*) "a0" <- "self".[#0];
    (*165*) "a1" <- "self".[#1];
    (*166*) "a2" <- "self".[#2];
    (*167*) "a3" <- "self".[#3];
    (*168*) "a4" <- "self".[#4];
    (*169*) "a5" <- "self".[#5];
    (*170*) "a6" <- "self".[#6];
    (*171*) "a7" <- "self".[#7];
    (*172*) "a8" <- "self".[#8];
    (*173*) "a9" <- ("self".[#9]) .& #0x00000007ffffffff;
    (*175*) "b0" <- "rhs".[#0];
    (*176*) "b1" <- "rhs".[#1];
    (*177*) "b2" <- "rhs".[#2];
    (*178*) "b3" <- "rhs".[#3];
    (*179*) "b4" <- "rhs".[#4];
    (*180*) "b5" <- "rhs".[#5];
    (*181*) "b6" <- "rhs".[#6];
    (*182*) "b7" <- "rhs".[#7];
    (*183*) "b8" <- "rhs".[#8];
    (*184*) "b9" <- ("rhs".[#9]) .& #0x00000007ffffffff;
    (*186*) "cin" <- (carry_out "self") .+ (carry_out "rhs");
    (*187*) "s0" <- ("a0" .+ "b0") .+ ("cin" .* (EInt C_VAL));
    (*188*) "c0" <- "s0" .>> #54;
    (*189*) "s1" <- ("a1" .+ "b1") .+ "c0";
    (*190*) "c1" <- "s1" .>> #54;
    (*191*) "s2" <- ("a2" .+ "b2") .+ "c1";
    (*192*) "c2" <- "s2" .>> #54;
    (*193*) "s3" <- ("a3" .+ "b3") .+ "c2";
    (*194*) "c3" <- "s3" .>> #54;
    (*195*) "s4" <- ("a4" .+ "b4") .+ "c3";
    (*196*) "c4" <- "s4" .>> #54;
    (*197*) "s5" <- ("a5" .+ "b5") .+ "c4";
    (*198*) "c5" <- "s5" .>> #54;
    (*199*) "s6" <- ("a6" .+ "b6") .+ "c5";
    (*200*) "c6" <- "s6" .>> #54;
    (*201*) "s7" <- ("a7" .+ "b7") .+ "c6";
    (*202*) "c7" <- "s7" .>> #54;
    (*203*) "s8" <- ("a8" .+ "b8") .+ "c7";
    (*204*) "c8" <- "s8" .>> #54;
    (*205*) "s9" <- ("a9" .+ "b9") .+ "c8";
    (*207*) SSet "self" #0 ("s0" .& #0x003fffffffffffff);
    (*208*) SSet "self" #1 ("s1" .& #0x003fffffffffffff);
    (*209*) SSet "self" #2 ("s2" .& #0x003fffffffffffff);
    (*210*) SSet "self" #3 ("s3" .& #0x003fffffffffffff);
    (*211*) SSet "self" #4 ("s4" .& #0x003fffffffffffff);
    (*212*) SSet "self" #5 ("s5" .& #0x003fffffffffffff);
    (*213*) SSet "self" #6 ("s6" .& #0x003fffffffffffff);
    (*214*) SSet "self" #7 ("s7" .& #0x003fffffffffffff);
    (*215*) SSet "self" #8 ("s8" .& #0x003fffffffffffff);
    (*216*) SSet "self" #9 ("s9") ]
    [].

(* src/field/mod_e521_1.rs:221-223  AddAssign<F>  F::add_assign(F) *)
Definition f_add_assign_val : func := mkfunc ["self"; "rhs"] [
    (*222*) SCall [] "F::add_assign(&F)" [AMut "self"; AVal "rhs"] ]
    [].

(* src/field/mod_e521_1.rs:227-229  AddAssign<i32>  F::add_assign(i32) *)
Definition f_add_assign_i32 : func := mkfunc ["self"; "rhs"] [
    (*228*) SCall [] "F::small_add_assign" [AMut "self"; AVal "rhs"] ]
    [].

(* src/field/mod_e521_1.rs:233-235  AddAssign<i16>  F::add_assign(i16) *)
Definition f_add_assign_i16 : func := mkfunc ["self"; "rhs"] [
    (*234*) SCall [] "F::small_add_assign" [AMut "self"; AVal (ECast I32 "rhs")] ]
    [].

(* src/field/mod_e521_1.rs:239-241  AddAssign<i8>  F::add_assign(i8) *)
Definition f_add_assign_i8 : func := mkfunc ["self"; "rhs"] [
    (*240*) SCall [] "F::small_add_assign" [AMut "self"; AVal (ECast I32 "rhs")] ]
    [].

(* src/field/mod_e521_1.rs:247-251  Add<&F>  (&F)::add(&F) *)
Definition f_ref_add_ref : func := mkfunc ["self"; "a"] [
    (*248*) "out" <- "self";
    (*249*) SCall [] "F::add_assign(&F)" [AMut "out"; AVal "a"] ]
    [EVar "out"].

(* src/field/mod_e521_1.rs:257-259  Add<F>  F::add(F) *)
Definition f_add_val : func := mkfunc ["self"; "a"] [
    (*258*) SCall ["%1"] "(&F)::add(&F)" [AVal "self"; AVal "a"] ]
    [EVar "%1"].

(* src/field/mod_e521_1.rs:265-267  Add<&F>  i32::add(&F) *)
Definition f_i32_add_ref : func := mkfunc ["self"; "a"] [
    (*266*) SCall ["%1"] "F::small_add" [AVal "a"; AVal "self"] ]
    [EVar "%1"].

(* src/field/mod_e521_1.rs:273-275  Add<&F>  i16::add(&F) *)
Definition f_i16_add_ref : func := mkfunc ["self"; "a"] [
    (*274*) SCall ["%1"] "F::small_add" [AVal "a"; AVal (ECast I32 "self")] ]
    [EVar "%1"].

(* src/field/mod_e521_1.rs:281-283  Add<&F>  i8::add(&F) *)
Definition f_i8_add_ref : func := mkfunc ["self"; "a"] [
    (*282*) SCall ["%1"] "F::small_add" [AVal "a"; AVal (ECast I32 "self")] ]
    [EVar "%1"].

(* src/field/mod_e521_1.rs:289-291  Add<i32>  (&F)::add(i32) *)
Definition f_ref_add_i32 : func := mkfunc ["self"; "a"] [
    (*290*) SCall ["%1"] "F::small_add" [AVal "self"; AVal "a"] ]
    [EVar "%1"].

(* src/field/mod_e521_1.rs:297-299  Add<i16>  (&F)::add(i16) *)
Definition f_ref_add_i16 : func := mkfunc ["self"; "a"] [
    (*298*) SCall ["%1"] "F::small_add" [AVal "self"; AVal (ECast I32 "a")] ]
    [EVar "%1"].

(* src/field/mod_e521_1.rs:305-307  Add<i8>  (&F)::add(i8) *)
Definition f_ref_add_i8 : func := mkfunc ["self"; "a"] [
    (*306*) SCall ["%1"] "F::small_add" [AVal "self"; AVal (ECast I32 "a")] ]
    [EVar "%1"].

(* src/field/mod_e521_1.rs:313-315  Add<i32>  F::add(i32) *)
Definition f_add_i32 : func := mkfunc ["self"; "a"] [
    (*314*) SCall ["%1"] "(&F)::add(i32)" [AVal "self"; AVal "a"] ]
    [EVar "%1"].

(* src/field/mod_e521_1.rs:321-323  Add<i16>  F::add(i16) *)
Definition f_add_i16 : func := mkfunc ["self"; "a"] [
    (*322*) SCall ["%1"] "(&F)::add(i16)" [AVal "self"; AVal "a"] ]
    [EVar "%1"].

(* src/field/mod_e521_1.rs:329-331  Add<i8>  F::add(i8) *)
Definition f_add_i8 : func := mkfunc ["self"; "a"] [
    (*330*) SCall ["%1"] "(&F)::add(i8)" [AVal "self"; AVal "a"] ]
    [EVar "%1"].

(* src/field/mod_e521_1.rs:335-337  DivAssign<&F>  F::div_assign(&F) *)
Definition f_div_assign_ref : func := mkfunc ["self"; "rhs"] [
    (*336*) SCall ["%1"] "F::inverted" [AVal "rhs"];
    (*336*) SCall [] "F::mul_assign(&F)" [AMut "self"; AVal "%1"] ]
    [].

(* src/field/mod_e521_1.rs:341-343  DivAssign<F>  F::div_assign(F) *)
Definition f_div_assign_val : func := mkfunc ["self"; "rhs"] [
    (*342*) SCall [] "F::div_assign(&F)" [AMut "self"; AVal "rhs"] ]
    [].

(* src/field/mod_e521_1.rs:349-353  Div<&F>  (&F)::div(&F) *)
Definition f_ref_div_ref : func := mkfunc ["self"; "a"] [
    (*350*) "out" <- "self";
    (*351*) SCall [] "F::div_assign(&F)" [AMut "out"; AVal "a"] ]
    [EVar "out"].

(* src/field/mod_e521_1.rs:359-361  Div<F>  F::div(F) *)
Definition f_div_val : func := mkfunc ["self"; "a"] [
    (*360*) SCall ["%1"] "(&F)::div(&F)" [AVal "self"; AVal "a"] ]
    [EVar "%1"].

(* src/field/mod_e521_1.rs:365-419  SubAssign<&F>  F::sub_assign(&F) *)
Definition f_sub_assign_ref : func := mkfunc ["self"; "rhs"] [
    (*366*) "a0" <- "self".[#0];
    (*367*) "a1" <- "self".[#1];
    (*368*) "a2" <- "self".[#2];
    (*369*) "a3" <- "self".[#3];
    (*370*) "a4" <- "self".[#4];
    (*371*) "a5" <- "self".[#5];
    (*372*) "a6" <- "self".[#6];
    (*373*) "a7" <- "self".[#7];
    (*374*) "a8" <- "self".[#8];
    (*375*) "a9" <- ("self".[#9]) .& #0x00000007ffffffff;
    (*377*) "b0" <- "rhs".[#0];
    (*378*) "b1" <- "rhs".[#1];
    (*379*) "b2" <- "rhs".[#2];
    (*380*) "b3" <- "rhs".[#3];
    (*381*) "b4" <- "rhs".[#4];
    (*382*) "b5" <- "rhs".[#5];
    (*383*) "b6" <- "rhs".[#6];
    (*384*) "b7" <- "rhs".[#7];
    (*385*) "b8" <- "rhs".[#8];
    (*386*) "b9" <- ("rhs".[#9]) .& #0x00000007ffffffff;
    (*388*) "cin" <- (carry_out "self") .+ (carry_out "rhs");
    (*389*) "s0" <- ("a0" .- "b0") .+ ("cin" .* (EInt C_VAL));
    (*390*) "c0" <- "s0" .>> #54;
    (*391*) "s1" <- ("a1" .- "b1") .+ "c0";
    (*392*) "c1" <- "s1" .>> #54;
    (*393*) "s2" <- ("a2" .- "b2") .+ "c1";
    (*394*) "c2" <- "s2" .>> #54;
    (*395*) "s3" <- ("a3" .- "b3") .+ "c2";
    (*396*) "c3" <- "s3" .>> #54;
    (*397*) "s4" <- ("a4" .- "b4") .+ "c3";
    (*398*) "c4" <- "s4" .>> #54;
    (*399*) "s5" <- ("a5" .- "b5") .+ "c4";
    (*400*) "c5" <- "s5" .>> #54;
    (*401*) "s6" <- ("a6" .- "b6") .+ "c5";
    (*402*) "c6" <- "s6" .>> #54;
    (*403*) "s7" <- ("a7" .- "b7") .+ "c6";
    (*404*) "c7" <- "s7" .>> #54;
    (*405*) "s8" <- ("a8" .- "b8") .+ "c7";
    (*406*) "c8" <- "s8" .>> #54;
    (*407*) "s9" <- ("a9" .- "b9") .+ "c8";
    (*409*) SSet "self" #0 ("s0" .& #0x003fffffffffffff);
    (*410*) SSet "self" #1 ("s1" .& #0x003fffffffffffff);
    (*411*) SSet "self" #2 ("s2" .& #0x003fffffffffffff);
    (*412*) SSet "self" #3 ("s3" .& #0x003fffffffffffff);
    (*413*) SSet "self" #4 ("s4" .& #0x003fffffffffffff);
    (*414*) SSet "self" #5 ("s5" .& #0x003fffffffffffff);
    (*415*) SSet "self" #6 ("s6" .& #0x003fffffffffffff);
    (*416*) SSet "self" #7 ("s7" .& #0x003fffffffffffff);
    (*417*) SSet "self" #8 ("s8" .& #0x003fffffffffffff);
    (*418*) SSet "self" #9 ("s9") ]
    [].

(* src/field/mod_e521_1.rs:423-425  SubAssign<F>  F::sub_assign(F) *)
Definition f_sub_assign_val : func := mkfunc ["self"; "rhs"] [
    (*424*) SCall [] "F::sub_assign(&F)" [AMut "self"; AVal "rhs"] ]
    [].

(* src/field/mod_e521_1.rs:429-431  SubAssign<i32>  F::sub_assign(i32) *)
Definition f_sub_assign_i32 : func := mkfunc ["self"; "rhs"] [
    (*430*) SCall [] "F::small_sub_assign" [AMut "self"; AVal "rhs"] ]
    [].

(* src/field/mod_e521_1.rs:435-437  SubAssign<i16>  F::sub_assign(i16) *)
Definition f_sub_assign_i16 : func := mkfunc ["self"; "rhs"] [
    (*436*) SCall [] "F::small_sub_assign" [AMut "self"; AVal (ECast I32 "rhs")] ]
    [].

(* src/field/mod_e521_1.rs:441-443  SubAssign<i8>  F::sub_assign(i8) *)
Definition f_sub_assign_i8 : func := mkfunc ["self"; "rhs"] [
    (*442*) SCall [] "F::small_sub_assign" [AMut "self"; AVal (ECast I32 "rhs")] ]
    [].

(* src/field/mod_e521_1.rs:449-451  Sub<i32>  F::sub(i32) *)
Definition f_sub_i32 : func := mkfunc ["self"; "a"] [
    (*450*) SCall ["%1"] "(&F)::sub(i32)" [AVal "self"; AVal "a"] ]
    [EVar "%1"].

(* src/field/mod_e521_1.rs:457-459  Sub<i16>  F::sub(i16) *)
Definition f_sub_i16 : func := mkfunc ["self"; "a"] [
    (*458*) SCall ["%1"] "(&F)::sub(i16)" [AVal "self"; AVal "a"] ]
    [EVar "%1"].

(* src/field/mod_e521_1.rs:465-467  Sub<i8>  F::sub(i8) *)
Definition f_sub_i8 : func := mkfunc ["self"; "a"] [
    (*466*) SCall ["%1"] "(&F)::sub(i8)" [AVal "self"; AVal "a"] ]
    [EVar "%1"].

(* src/field/mod_e521_1.rs:473-477  Sub<&F>  (&F)::sub(&F) *)
Definition f_ref_sub_ref : func := mkfunc ["self"; "a"] [
    (*474*) "out" <- "self";
    (*475*) SCall [] "F::sub_assign(&F)" [AMut "out"; AVal "a"] ]
    [EVar "out"].

(* src/field/mod_e521_1.rs:483-485  Sub<F>  F::sub(F) *)
Definition f_sub_val : func := mkfunc ["self"; "a"] [
    (*484*) SCall ["%1"] "(&F)::sub(&F)" [AVal "self"; AVal "a"] ]
    [EVar "%1"].

(* src/field/mod_e521_1.rs:491-493  Sub<i32>  (&F)::sub(i32) *)
Definition f_ref_sub_i32 : func := mkfunc ["self"; "a"] [
    (*492*) SCall ["%1"] "F::small_sub" [AVal "self"; AVal "a"] ]
    [EVar "%1"].

(* src/field/mod_e521_1.rs:499-501  Sub<i16>  (&F)::sub(i16) *)
Definition f_ref_sub_i16 : func := mkfunc ["self"; "a"] [
    (*500*) SCall ["%1"] "F::small_sub" [AVal "self"; AVal (ECast I32 "a")] ]
    [EVar "%1"].

(* src/field/mod_e521_1.rs:507-509  Sub<i8>  (&F)::sub(i8) *)
Definition f_ref_sub_i8 : func := mkfunc ["self"; "a"] [
    (*508*) SCall ["%1"] "F::small_sub" [AVal "self"; AVal (ECast I32 "a")] ]
    [EVar "%1"].

(* src/field/mod_e521_1.rs:513-515  MulAssign<i32>  F::mul_assign(i32) *)
Definition f_mul_assign_i32 : func := mkfunc ["self"; "rhs"] [
    (*514*) SCall [] "F::small_mul_assign" [AMut "self"; AVal "rhs"] ]
    [].

(* src/field/mod_e521_1.rs:519-521  MulAssign<i16>  F::mul_assign(i16) *)
Definition f_mul_assign_i16 : func := mkfunc ["self"; "rhs"] [
    (*520*) SCall [] "F::small_mul_assign" [AMut "self"; AVal (ECast I32 "rhs")] ]
    [].

(* src/field/mod_e521_1.rs:525-527  MulAssign<i8>  F::mul_assign(i8) *)
Definition f_mul_assign_i8 : func := mkfunc ["self"; "rhs"] [
    (*526*) SCall [] "F::small_mul_assign" [AMut "self"; AVal (ECast I32 "rhs")] ]
    [].

(* src/field/mod_e521_1.rs:531-1294  MulAssign<&F>  F::mul_assign(&F) *)
Definition f_mul_assign_ref : func := mkfunc ["self"; "rhs"] [
    (*532*) "a0" <- ("self".[#0]) .& #0x07ffffff;
    (*533*) "a1" <- ("self".[#0]) .>> #27;
    (*534*) "a2" <- ("self".[#1]) .& #0x07ffffff;
    (*535*) "a3" <- ("self".[#1]) .>> #27;
    (*536*) "a4" <- ("self".[#2]) .& #0x07ffffff;
    (*537*) "a5" <- ("self".[#2]) .>> #27;
    (*538*) "a6" <- ("self".[#3]) .& #0x07ffffff;
    (*539*) "a7" <- ("self".[#3]) .>> #27;
    (*540*) "a8" <- ("self".[#4]) .& #0x07ffffff;
    (*541*) "a9" <- ("self".[#4]) .>> #27;
    (*542*) "a10" <- ("self".[#5]) .& #0x07ffffff;
    (*543*) "a11" <- ("self".[#5]) .>> #27;
    (*544*) "a12" <- ("self".[#6]) .& #0x07ffffff;
    (*545*) "a13" <- ("self".[#6]) .>> #27;
    (*546*) "a14" <- ("self".[#7]) .& #0x07ffffff;
    (*547*) "a15" <- ("self".[#7]) .>> #27;
    (*548*) "a16" <- ("self".[#8]) .& #0x07ffffff;
    (*549*) "a17" <- ("self".[#8]) .>> #27;
    (*550*) "a18" <- ("self".[#9]) .& #0x07ffffff;
    (*551*) "a19" <- ("self".[#9]) .>> #27;
    (*553*) "b0" <- ("rhs".[#0]) .& #0x07ffffff;
    (*554*) "b1" <- ("rhs".[#0]) .>> #27;
    (*555*) "b2" <- ("rhs".[#1]) .& #0x07ffffff;
    (*556*) "b3" <- ("rhs".[#1]) .>> #27;
    (*557*) "b4" <- ("rhs".[#2]) .& #0x07ffffff;
    (*558*) "b5" <- ("rhs".[#2]) .>> #27;
    (*559*) "b6" <- ("rhs".[#3]) .& #0x07ffffff;
    (*560*) "b7" <- ("rhs".[#3]) .>> #27;
    (*561*) "b8" <- ("rhs".[#4]) .& #0x07ffffff;
    (*562*) "b9" <- ("rhs".[#4]) .>> #27;
    (*563*) "b10" <- ("rhs".[#5]) .& #0x07ffffff;
    (*564*) "b11" <- ("rhs".[#5]) .>> #27;
    (*565*) "b12" <- ("rhs".[#6]) .& #0x07ffffff;
    (*566*) "b13" <- ("rhs".[#6]) .>> #27;
    (*567*) "b14" <- ("rhs".[#7]) .& #0x07ffffff;
    (*568*) "b15" <- ("rhs".[#7]) .>> #27;
    (*569*) "b16" <- ("rhs".[#8]) .& #0x07ffffff;
    (*570*) "b17" <- ("rhs".[#8]) .>> #27;
    (*571*) "b18" <- ("rhs".[#9]) .& #0x07ffffff;
    (*572*) "b19" <- ("rhs".[#9]) .>> #27;
    (*575*) "m_0_0" <- "a0" .* "b0";
    (*576*) "m_0_1" <- "a0" .* "b1";
    (*577*) "m_0_2" <- "a0" .* "b2";
    (*578*) "m_0_3" <- "a0" .* "b3";
    (*579*) "m_0_4" <- "a0" .* "b4";
    (*580*) "m_0_5" <- "a0" .* "b5";
    (*581*) "m_0_6" <- "a0" .* "b6";
    (*582*) "m_0_7" <- "a0" .* "b7";
    (*583*) "m_0_8" <- "a0" .* "b8";
    (*584*) "m_0_9" <- "a0" .* "b9";
    (*585*) "m_0_10" <- "a0" .* "b10";
    (*586*) "m_0_11" <- "a0" .* "b11";
    (*587*) "m_0_12" <- "a0" .* "b12";
    (*588*) "m_0_13" <- "a0" .* "b13";
    (*589*) "m_0_14" <- "a0" .* "b14";
    (*590*) "m_0_15" <- "a0" .* "b15";
    (*591*) "m_0_16" <- "a0" .* "b16";
    (*592*) "m_0_17" <- "a0" .* "b17";
    (*593*) "m_0_18" <- "a0" .* "b18";
    (*594*) "m_0_19" <- "a0" .* "b19";
    (*595*) "m_1_0" <- "a1" .* "b0";
    (*596*) "m_1_1" <- "a1" .* "b1";
    (*597*) "m_1_2" <- "a1" .* "b2";
    (*598*) "m_1_3" <- "a1" .* "b3";
    (*599*) "m_1_4" <- "a1" .* "b4";
    (*600*) "m_1_5" <- "a1" .* "b5";
    (*601*) "m_1_6" <- "a1" .* "b6";
    (*602*) "m_1_7" <- "a1" .* "b7";
    (*603*) "m_1_8" <- "a1" .* "b8";
    (*604*) "m_1_9" <- "a1" .* "b9";
    (*605*) "m_1_10" <- "a1" .* "b10";
    (*606*) "m_1_11" <- "a1" .* "b11";
    (*607*) "m_1_12" <- "a1" .* "b12";
    (*608*) "m_1_13" <- "a1" .* "b13";
    (*609*) "m_1_14" <- "a1" .* "b14";
    (*610*) "m_1_15" <- "a1" .* "b15";
    (*611*) "m_1_16" <- "a1" .* "b16";
    (*612*) "m_1_17" <- "a1" .* "b17";
    (*613*) "m_1_18" <- "a1" .* "b18";
    (*614*) "m_1_19" <- "a1" .* "b19";
    (*615*) "m_2_0" <- "a2" .* "b0";
    (*616*) "m_2_1" <- "a2" .* "b1";
    (*617*) "m_2_2" <- "a2" .* "b2";
    (*618*) "m_2_3" <- "a2" .* "b3";
    (*619*) "m_2_4" <- "a2" .* "b4";
    (*620*) "m_2_5" <- "a2" .* "b5";
    (*621*) "m_2_6" <- "a2" .* "b6";
    (*622*) "m_2_7" <- "a2" .* "b7";
    (*623*) "m_2_8" <- "a2" .* "b8";
    (*624*) "m_2_9" <- "a2" .* "b9";
    (*625*) "m_2_10" <- "a2" .* "b10";
    (*626*) "m_2_11" <- "a2" .* "b11";
    (*627*) "m_2_12" <- "a2" .* "b12";
    (*628*) "m_2_13" <- "a2" .* "b13";
    (*629*) "m_2_14" <- "a2" .* "b14";
    (*630*) "m_2_15" <- "a2" .* "b15";
    (*631*) "m_2_16" <- "a2" .* "b16";
    (*632*) "m_2_17" <- "a2" .* "b17";
    (*633*) "m_2_18" <- "a2" .* "b18";
    (*634*) "m_2_19" <- "a2" .* "b19";
    (*635*) "m_3_0" <- "a3" .* "b0";
    (*636*) "m_3_1" <- "a3" .* "b1";
    (*637*) "m_3_2" <- "a3" .* "b2";
    (*638*) "m_3_3" <- "a3" .* "b3";
    (*639*) "m_3_4" <- "a3" .* "b4";
    (*640*) "m_3_5" <- "a3" .* "b5";
    (*641*) "m_3_6" <- "a3" .* "b6";
    (*642*) "m_3_7" <- "a3" .* "b7";
    (*643*) "m_3_8" <- "a3" .* "b8";
    (*644*) "m_3_9" <- "a3" .* "b9";
    (*645*) "m_3_10" <- "a3" .* "b10";
    (*646*) "m_3_11" <- "a3" .* "b11";
    (*647*) "m_3_12" <- "a3" .* "b12";
    (*648*) "m_3_13" <- "a3" .* "b13";
    (*649*) "m_3_14" <- "a3" .* "b14";
    (*650*) "m_3_15" <- "a3" .* "b15";
    (*651*) "m_3_16" <- "a3" .* "b16";
    (*652*) "m_3_17" <- "a3" .* "b17";
    (*653*) "m_3_18" <- "a3" .* "b18";
    (*654*) "m_3_19" <- "a3" .* "b19";
    (*655*) "m_4_0" <- "a4" .* "b0";
    (*656*) "m_4_1" <- "a4" .* "b1";
    (*657*) "m_4_2" <- "a4" .* "b2";
    (*658*) "m_4_3" <- "a4" .* "b3";
    (*659*) "m_4_4" <- "a4" .* "b4";
    (*660*) "m_4_5" <- "a4" .* "b5";
    (*661*) "m_4_6" <- "a4" .* "b6";
    (*662*) "m_4_7" <- "a4" .* "b7";
    (*663*) "m_4_8" <- "a4" .* "b8";
    (*664*) "m_4_9" <- "a4" .* "b9";
    (*665*) "m_4_10" <- "a4" .* "b10";
    (*666*) "m_4_11" <- "a4" .* "b11";
    (*667*) "m_4_12" <- "a4" .* "b12";
    (*668*) "m_4_13" <- "a4" .* "b13";
    (*669*) "m_4_14" <- "a4" .* "b14";
    (*670*) "m_4_15" <- "a4" .* "b15";
    (*671*) "m_4_16" <- "a4" .* "b16";
    (*672*) "m_4_17" <- "a4" .* "b17";
    (*673*) "m_4_18" <- "a4" .* "b18";
    (*674*) "m_4_19" <- "a4" .* "b19";
    (*675*) "m_5_0" <- "a5" .* "b0";
    (*676*) "m_5_1" <- "a5" .* "b1";
    (*677*) "m_5_2" <- "a5" .* "b2";
    (*678*) "m_5_3" <- "a5" .* "b3";
    (*679*) "m_5_4" <- "a5" .* "b4";
    (*680*) "m_5_5" <- "a5" .* "b5";
    (*681*) "m_5_6" <- "a5" .* "b6";
    (*682*) "m_5_7" <- "a5" .* "b7";
    (*683*) "m_5_8" <- "a5" .* "b8";
    (*684*) "m_5_9" <- "a5" .* "b9";
    (*685*) "m_5_10" <- "a5" .* "b10";
    (*686*) "m_5_11" <- "a5" .* "b11";
    (*687*) "m_5_12" <- "a5" .* "b12";
    (*688*) "m_5_13" <- "a5" .* "b13";
    (*689*) "m_5_14" <- "a5" .* "b14";
    (*690*) "m_5_15" <- "a5" .* "b15";
    (*691*) "m_5_16" <- "a5" .* "b16";
    (*692*) "m_5_17" <- "a5" .* "b17";
    (*693*) "m_5_18" <- "a5" .* "b18";
    (*694*) "m_5_19" <- "a5" .* "b19";
    (*695*) "m_6_0" <- "a6" .* "b0";
    (*696*) "m_6_1" <- "a6" .* "b1";
    (*697*) "m_6_2" <- "a6" .* "b2";
    (*698*) "m_6_3" <- "a6" .* "b3";
    (*699*) "m_6_4" <- "a6" .* "b4";
    (*700*) "m_6_5" <- "a6" .* "b5";
    (*701*) "m_6_6" <- "a6" .* "b6";
    (*702*) "m_6_7" <- "a6" .* "b7";
    (*703*) "m_6_8" <- "a6" .* "b8";
    (*704*) "m_6_9" <- "a6" .* "b9";
    (*705*) "m_6_10" <- "a6" .* "b10";
    (*706*) "m_6_11" <- "a6" .* "b11";
    (*707*) "m_6_12" <- "a6" .* "b12";
    (*708*) "m_6_13" <- "a6" .* "b13";
    (*709*) "m_6_14" <- "a6" .* "b14";
    (*710*) "m_6_15" <- "a6" .* "b15";
    (*711*) "m_6_16" <- "a6" .* "b16";
    (*712*) "m_6_17" <- "a6" .* "b17";
    (*713*) "m_6_18" <- "a6" .* "b18";
    (*714*) "m_6_19" <- "a6" .* "b19";
    (*715*) "m_7_0" <- "a7" .* "b0";
    (*716*) "m_7_1" <- "a7" .* "b1";
    (*717*) "m_7_2" <- "a7" .* "b2";
    (*718*) "m_7_3" <- "a7" .* "b3";
    (*719*) "m_7_4" <- "a7" .* "b4";
    (*720*) "m_7_5" <- "a7" .* "b5";
    (*721*) "m_7_6" <- "a7" .* "b6";
    (*722*) "m_7_7" <- "a7" .* "b7";
    (*723*) "m_7_8" <- "a7" .* "b8";
    (*724*) "m_7_9" <- "a7" .* "b9";
    (*725*) "m_7_10" <- "a7" .* "b10";
    (*726*) "m_7_11" <- "a7" .* "b11";
    (*727*) "m_7_12" <- "a7" .* "b12";
    (*728*) "m_7_13" <- "a7" .* "b13";
    (*729*) "m_7_14" <- "a7" .* "b14";
    (*730*) "m_7_15" <- "a7" .* "b15";
    (*731*) "m_7_16" <- "a7" .* "b16";
    (*732*) "m_7_17" <- "a7" .* "b17";
    (*733*) "m_7_18" <- "a7" .* "b18";
    (*734*) "m_7_19" <- "a7" .* "b19";
    (*735*) "m_8_0" <- "a8" .* "b0";
    (*736*) "m_8_1" <- "a8" .* "b1";
    (*737*) "m_8_2" <- "a8" .* "b2";
    (*738*) "m_8_3" <- "a8" .* "b3";
    (*739*) "m_8_4" <- "a8" .* "b4";
    (*740*) "m_8_5" <- "a8" .* "b5";
    (*741*) "m_8_6" <- "a8" .* "b6";
    (*742*) "m_8_7" <- "a8" .* "b7";
    (*743*) "m_8_8" <- "a8" .* "b8";
    (*744*) "m_8_9" <- "a8" .* "b9";
    (*745*) "m_8_10" <- "a8" .* "b10";
    (*746*) "m_8_11" <- "a8" .* "b11";
    (*747*) "m_8_12" <- "a8" .* "b12";
    (*748*) "m_8_13" <- "a8" .* "b13";
    (*749*) "m_8_14" <- "a8" .* "b14";
    (*750*) "m_8_15" <- "a8" .* "b15";
    (*751*) "m_8_16" <- "a8" .* "b16";
    (*752*) "m_8_17" <- "a8" .* "b17";
    (*753*) "m_8_18" <- "a8" .* "b18";
    (*754*) "m_8_19" <- "a8" .* "b19";
    (*755*) "m_9_0" <- "a9" .* "b0";
    (*756*) "m_9_1" <- "a9" .* "b1";
    (*757*) "m_9_2" <- "a9" .* "b2";
    (*758*) "m_9_3" <- "a9" .* "b3";
    (*759*) "m_9_4" <- "a9" .* "b4";
    (*760*) "m_9_5" <- "a9" .* "b5";
    (*761*) "m_9_6" <- "a9" .* "b6";
    (*762*) "m_9_7" <- "a9" .* "b7";
    (*763*) "m_9_8" <- "a9" .* "b8";
    (*764*) "m_9_9" <- "a9" .* "b9";
    (*765*) "m_9_10" <- "a9" .* "b10";
    (*766*) "m_9_11" <- "a9" .* "b11";
    (*767*) "m_9_12" <- "a9" .* "b12";
    (*768*) "m_9_13" <- "a9" .* "b13";
    (*769*) "m_9_14" <- "a9" .* "b14";
    (*770*) "m_9_15" <- "a9" .* "b15";
    (*771*) "m_9_16" <- "a9" .* "b16";
    (*772*) "m_9_17" <- "a9" .* "b17";
    (*773*) "m_9_18" <- "a9" .* "b18";
    (*774*) "m_9_19" <- "a9" .* "b19";
    (*775*) "m_10_0" <- "a10" .* "b0";
    (*776*) "m_10_1" <- "a10" .* "b1";
    (*777*) "m_10_2" <- "a10" .* "b2";
    (*778*) "m_10_3" <- "a10" .* "b3";
    (*779*) "m_10_4" <- "a10" .* "b4";
    (*780*) "m_10_5" <- "a10" .* "b5";
    (*781*) "m_10_6" <- "a10" .* "b6";
    (*782*) "m_10_7" <- "a10" .* "b7";
    (*783*) "m_10_8" <- "a10" .* "b8";
    (*784*) "m_10_9" <- "a10" .* "b9";
    (*785*) "m_10_10" <- "a10" .* "b10";
    (*786*) "m_10_11" <- "a10" .* "b11";
    (*787*) "m_10_12" <- "a10" .* "b12";
    (*788*) "m_10_13" <- "a10" .* "b13";
    (*789*) "m_10_14" <- "a10" .* "b14";
    (*790*) "m_10_15" <- "a10" .* "b15";
    (*791*) "m_10_16" <- "a10" .* "b16";
    (*792*) "m_10_17" <- "a10" .* "b17";
    (*793*) "m_10_18" <- "a10" .* "b18";
    (*794*) "m_10_19" <- "a10" .* "b19";
    (*795*) "m_11_0" <- "a11" .* "b0";
    (*796*) "m_11_1" <- "a11" .* "b1";
    (*797*) "m_11_2" <- "a11" .* "b2";
    (*798*) "m_11_3" <- "a11" .* "b3";
    (*799*) "m_11_4" <- "a11" .* "b4";
    (*800*) "m_11_5" <- "a11" .* "b5";
    (*801*) "m_11_6" <- "a11" .* "b6";
    (*802*) "m_11_7" <- "a11" .* "b7";
    (*803*) "m_11_8" <- "a11" .* "b8";
    (*804*) "m_11_9" <- "a11" .* "b9";
    (*805*) "m_11_10" <- "a11" .* "b10";
    (*806*) "m_11_11" <- "a11" .* "b11";
    (*807*) "m_11_12" <- "a11" .* "b12";
    (*808*) "m_11_13" <- "a11" .* "b13";
    (*809*) "m_11_14" <- "a11" .* "b14";
    (*810*) "m_11_15" <- "a11" .* "b15";
    (*811*) "m_11_16" <- "a11" .* "b16";
    (*812*) "m_11_17" <- "a11" .* "b17";
    (*813*) "m_11_18" <- "a11" .* "b18";
    (*814*) "m_11_19" <- "a11" .* "b19";
    (*815*) "m_12_0" <- "a12" .* "b0";
    (*816*) "m_12_1" <- "a12" .* "b1";
    (*817*) "m_12_2" <- "a12" .* "b2";
    (*818*) "m_12_3" <- "a12" .* "b3";
    (*819*) "m_12_4" <- "a12" .* "b4";
    (*820*) "m_12_5" <- "a12" .* "b5";
    (*821*) "m_12_6" <- "a12" .* "b6";
    (*822*) "m_12_7" <- "a12" .* "b7";
    (*823*) "m_12_8" <- "a12" .* "b8";
    (*824*) "m_12_9" <- "a12" .* "b9";
    (*825*) "m_12_10" <- "a12" .* "b10";
    (*826*) "m_12_11" <- "a12" .* "b11";
    (*827*) "m_12_12" <- "a12" .* "b12";
    (*828*) "m_12_13" <- "a12" .* "b13";
    (*829*) "m_12_14" <- "a12" .* "b14";
    (*830*) "m_12_15" <- "a12" .* "b15";
    (*831*) "m_12_16" <- "a12" .* "b16";
    (*832*) "m_12_17" <- "a12" .* "b17";
    (*833*) "m_12_18" <- "a12" .* "b18";
    (*834*) "m_12_19" <- "a12" .* "b19";
    (*835*) "m_13_0" <- "a13" .* "b0";
    (*836*) "m_13_1" <- "a13" .* "b1";
    (*837*) "m_13_2" <- "a13" .* "b2";
    (*838*) "m_13_3" <- "a13" .* "b3";
    (*839*) "m_13_4" <- "a13" .* "b4";
    (*840*) "m_13_5" <- "a13" .* "b5";
    (*841*) "m_13_6" <- "a13" .* "b6";
    (*842*) "m_13_7" <- "a13" .* "b7";
    (*843*) "m_13_8" <- "a13" .* "b8";
    (*844*) "m_13_9" <- "a13" .* "b9";
    (*845*) "m_13_10" <- "a13" .* "b10";
    (*846*) "m_13_11" <- "a13" .* "b11";
    (*847*) "m_13_12" <- "a13" .* "b12";
    (*848*) "m_13_13" <- "a13" .* "b13";
    (*849*) "m_13_14" <- "a13" .* "b14";
    (*850*) "m_13_15" <- "a13" .* "b15";
    (*851*) "m_13_16" <- "a13" .* "b16";
    (*852*) "m_13_17" <- "a13" .* "b17";
    (*853*) "m_13_18" <- "a13" .* "b18";
    (*854*) "m_13_19" <- "a13" .* "b19";
    (*855*) "m_14_0" <- "a14" .* "b0";
    (*856*) "m_14_1" <- "a14" .* "b1";
    (*857*) "m_14_2" <- "a14" .* "b2";
    (*858*) "m_14_3" <- "a14" .* "b3";
    (*859*) "m_14_4" <- "a14" .* "b4";
    (*860*) "m_14_5" <- "a14" .* "b5";
    (*861*) "m_14_6" <- "a14" .* "b6";
    (*862*) "m_14_7" <- "a14" .* "b7";
    (*863*) "m_14_8" <- "a14" .* "b8";
    (*864*) "m_14_9" <- "a14" .* "b9";
    (*865*) "m_14_10" <- "a14" .* "b10";
    (*866*) "m_14_11" <- "a14" .* "b11";
    (*867*) "m_14_12" <- "a14" .* "b12";
    (*868*) "m_14_13" <- "a14" .* "b13";
    (*869*) "m_14_14" <- "a14" .* "b14";
    (*870*) "m_14_15" <- "a14" .* "b15";
    (*871*) "m_14_16" <- "a14" .* "b16";
    (*872*) "m_14_17" <- "a14" .* "b17";
    (*873*) "m_14_18" <- "a14" .* "b18";
    (*874*) "m_14_19" <- "a14" .* "b19";
    (*875*) "m_15_0" <- "a15" .* "b0";
    (*876*) "m_15_1" <- "a15" .* "b1";
    (*877*) "m_15_2" <- "a15" .* "b2";
    (*878*) "m_15_3" <- "a15" .* "b3";
    (*879*) "m_15_4" <- "a15" .* "b4";
    (*880*) "m_15_5" <- "a15" .* "b5";
    (*881*) "m_15_6" <- "a15" .* "b6";
    (*882*) "m_15_7" <- "a15" .* "b7";
    (*883*) "m_15_8" <- "a15" .* "b8";
    (*884*) "m_15_9" <- "a15" .* "b9";
    (*885*) "m_15_10" <- "a15" .* "b10";
    (*886*) "m_15_11" <- "a15" .* "b11";
    (*887*) "m_15_12" <- "a15" .* "b12";
    (*888*) "m_15_13" <- "a15" .* "b13";
    (*889*) "m_15_14" <- "a15" .* "b14";
    (*890*) "m_15_15" <- "a15" .* "b15";
    (*891*) "m_15_16" <- "a15" .* "b16";
    (*892*) "m_15_17" <- "a15" .* "b17";
    (*893*) "m_15_18" <- "a15" .* "b18";
    (*894*) "m_15_19" <- "a15" .* "b19";
    (*895*) "m_16_0" <- "a16" .* "b0";
    (*896*) "m_16_1" <- "a16" .* "b1";
    (*897*) "m_16_2" <- "a16" .* "b2";
    (*898*) "m_16_3" <- "a16" .* "b3";
    (*899*) "m_16_4" <- "a16" .* "b4";
    (*900*) "m_16_5" <- "a16" .* "b5";
    (*901*) "m_16_6" <- "a16" .* "b6";
    (*902*) "m_16_7" <- "a16" .* "b7";
    (*903*) "m_16_8" <- "a16" .* "b8";
    (*904*) "m_16_9" <- "a16" .* "b9";
    (*905*) "m_16_10" <- "a16" .* "b10";
    (*906*) "m_16_11" <- "a16" .* "b11";
    (*907*) "m_16_12" <- "a16" .* "b12";
    (*908*) "m_16_13" <- "a16" .* "b13";
    (*909*) "m_16_14" <- "a16" .* "b14";
    (*910*) "m_16_15" <- "a16" .* "b15";
    (*911*) "m_16_16" <- "a16" .* "b16";
    (*912*) "m_16_17" <- "a16" .* "b17";
    (*913*) "m_16_18" <- "a16" .* "b18";
    (*914*) "m_16_19" <- "a16" .* "b19";
    (*915*) "m_17_0" <- "a17" .* "b0";
    (*916*) "m_17_1" <- "a17" .* "b1";
    (*917*) "m_17_2" <- "a17" .* "b2";
    (*918*) "m_17_3" <- "a17" .* "b3";
    (*919*) "m_17_4" <- "a17" .* "b4";
    (*920*) "m_17_5" <- "a17" .* "b5";
    (*921*) "m_17_6" <- "a17" .* "b6";
    (*922*) "m_17_7" <- "a17" .* "b7";
    (*923*) "m_17_8" <- "a17" .* "b8";
    (*924*) "m_17_9" <- "a17" .* "b9";
    (*925*) "m_17_10" <- "a17" .* "b10";
    (*926*) "m_17_11" <- "a17" .* "b11";
    (*927*) "m_17_12" <- "a17" .* "b12";
    (*928*) "m_17_13" <- "a17" .* "b13";
    (*929*) "m_17_14" <- "a17" .* "b14";
    (*930*) "m_17_15" <- "a17" .* "b15";
    (*931*) "m_17_16" <- "a17" .* "b16";
    (*932*) "m_17_17" <- "a17" .* "b17";
    (*933*) "m_17_18" <- "a17" .* "b18";
    (*934*) "m_17_19" <- "a17" .* "b19";
    (*935*) "m_18_0" <- "a18" .* "b0";
    (*936*) "m_18_1" <- "a18" .* "b1";
    (*937*) "m_18_2" <- "a18" .* "b2";
    (*938*) "m_18_3" <- "a18" .* "b3";
    (*939*) "m_18_4" <- "a18" .* "b4";
    (*940*) "m_18_5" <- "a18" .* "b5";
    (*941*) "m_18_6" <- "a18" .* "b6";
    (*942*) "m_18_7" <- "a18" .* "b7";
    (*943*) "m_18_8" <- "a18" .* "b8";
    (*944*) "m_18_9" <- "a18" .* "b9";
    (*945*) "m_18_10" <- "a18" .* "b10";
    (*946*) "m_18_11" <- "a18" .* "b11";
    (*947*) "m_18_12" <- "a18" .* "b12";
    (*948*) "m_18_13" <- "a18" .* "b13";
    (*949*) "m_18_14" <- "a18" .* "b14";
    (*950*) "m_18_15" <- "a18" .* "b15";
    (*951*) "m_18_16" <- "a18" .* "b16";
    (*952*) "m_18_17" <- "a18" .* "b17";
    (*953*) "m_18_18" <- "a18" .* "b18";
    (*954*) "m_18_19" <- "a18" .* "b19";
    (*955*) "m_19_0" <- "a19" .* "b0";
    (*956*) "m_19_1" <- "a19" .* "b1";
    (*957*) "m_19_2" <- "a19" .* "b2";
    (*958*) "m_19_3" <- "a19" .* "b3";
    (*959*) "m_19_4" <- "a19" .* "b4";
    (*960*) "m_19_5" <- "a19" .* "b5";
    (*961*) "m_19_6" <- "a19" .* "b6";
    (*962*) "m_19_7" <- "a19" .* "b7";
    (*963*) "m_19_8" <- "a19" .* "b8";
    (*964*) "m_19_9" <- "a19" .* "b9";
    (*965*) "m_19_10" <- "a19" .* "b10";
    (*966*) "m_19_11" <- "a19" .* "b11";
    (*967*) "m_19_12" <- "a19" .* "b12";
    (*968*) "m_19_13" <- "a19" .* "b13";
    (*969*) "m_19_14" <- "a19" .* "b14";
    (*970*) "m_19_15" <- "a19" .* "b15";
    (*971*) "m_19_16" <- "a19" .* "b16";
    (*972*) "m_19_17" <- "a19" .* "b17";
    (*973*) "m_19_18" <- "a19" .* "b18";
    (*974*) "m_19_19" <- "a19" .* "b19";
    (*977*) "d0" <- ("m_0_0" .+ (("m_0_1" .& #0x07ffffff) .<< #27)) .+ (("m_1_0" .& #0x07ffffff) .<< #27);
    (*979*) "c0" <- "d0" .>> #54;
    (*980*) "d1" <- ((((((((("m_0_1" .>> #27) .+ "m_0_2") .+ (("m_0_3" .& #0x07ffffff) .<< #27)) .+ ("m_1_0" .>> #27)) .+ "m_1_1") .+ (("m_1_2" .& #0x07ffffff) .<< #27)) .+ "m_2_0") .+ (("m_2_1" .& #0x07ffffff) .<< #27)) .+ (("m_3_0" .& #0x07ffffff) .<< #27)) .+ "c0";
    (*984*) "c1" <- "d1" .>> #54;
    (*985*) "d2" <- ((((((((((((((("m_0_3" .>> #27) .+ "m_0_4") .+ (("m_0_5" .& #0x07ffffff) .<< #27)) .+ ("m_1_2" .>> #27)) .+ "m_1_3") .+ (("m_1_4" .& #0x07ffffff) .<< #27)) .+ ("m_2_1" .>> #27)) .+ "m_2_2") .+ (("m_2_3" .& #0x07ffffff) .<< #27)) .+ ("m_3_0" .>> #27)) .+ "m_3_1") .+ (("m_3_2" .& #0x07ffffff) .<< #27)) .+ "m_4_0") .+ (("m_4_1" .& #0x07ffffff) .<< #27)) .+ (("m_5_0" .& #0x07ffffff) .<< #27)) .+ "c1";
    (*991*) "c2" <- "d2" .>> #54;
    (*992*) "d3" <- ((((((((((((((((((((("m_0_5" .>> #27) .+ "m_0_6") .+ (("m_0_7" .& #0x07ffffff) .<< #27)) .+ ("m_1_4" .>> #27)) .+ "m_1_5") .+ (("m_1_6" .& #0x07ffffff) .<< #27)) .+ ("m_2_3" .>> #27)) .+ "m_2_4") .+ (("m_2_5" .& #0x07ffffff) .<< #27)) .+ ("m_3_2" .>> #27)) .+ "m_3_3") .+ (("m_3_4" .& #0x07ffffff) .<< #27)) .+ ("m_4_1" .>> #27)) .+ "m_4_2") .+ (("m_4_3" .& #0x07ffffff) .<< #27)) .+ ("m_5_0" .>> #27)) .+ "m_5_1") .+ (("m_5_2" .& #0x07ffffff) .<< #27)) .+ "m_6_0") .+ (("m_6_1" .& #0x07ffffff) .<< #27)) .+ (("m_7_0" .& #0x07ffffff) .<< #27)) .+ "c2";
    (*1000*) "c3" <- "d3" .>> #54;
    (*1001*) "d4" <- ((((((((((((((((((((((((((("m_0_7" .>> #27) .+ "m_0_8") .+ (("m_0_9" .& #0x07ffffff) .<< #27)) .+ ("m_1_6" .>> #27)) .+ "m_1_7") .+ (("m_1_8" .& #0x07ffffff) .<< #27)) .+ ("m_2_5" .>> #27)) .+ "m_2_6") .+ (("m_2_7" .& #0x07ffffff) .<< #27)) .+ ("m_3_4" .>> #27)) .+ "m_3_5") .+ (("m_3_6" .& #0x07ffffff) .<< #27)) .+ ("m_4_3" .>> #27)) .+ "m_4_4") .+ (("m_4_5" .& #0x07ffffff) .<< #27)) .+ ("m_5_2" .>> #27)) .+ "m_5_3") .+ (("m_5_4" .& #0x07ffffff) .<< #27)) .+ ("m_6_1" .>> #27)) .+ "m_6_2") .+ (("m_6_3" .& #0x07ffffff) .<< #27)) .+ ("m_7_0" .>> #27)) .+ "m_7_1") .+ (("m_7_2" .& #0x07ffffff) .<< #27)) .+ "m_8_0") .+ (("m_8_1" .& #0x07ffffff) .<< #27)) .+ (("m_9_0" .& #0x07ffffff) .<< #27)) .+ "c3";
    (*1011*) "c4" <- "d4" .>> #54;
    (*1012*) "d5" <- ((((((((((((((((((((((((((((((((("m_0_9" .>> #27) .+ "m_0_10") .+ (("m_0_11" .& #0x07ffffff) .<< #27)) .+ ("m_1_8" .>> #27)) .+ "m_1_9") .+ (("m_1_10" .& #0x07ffffff) .<< #27)) .+ ("m_2_7" .>> #27)) .+ "m_2_8") .+ (("m_2_9" .& #0x07ffffff) .<< #27)) .+ ("m_3_6" .>> #27)) .+ "m_3_7") .+ (("m_3_8" .& #0x07ffffff) .<< #27)) .+ ("m_4_5" .>> #27)) .+ "m_4_6") .+ (("m_4_7" .& #0x07ffffff) .<< #27)) .+ ("m_5_4" .>> #27)) .+ "m_5_5") .+ (("m_5_6" .& #0x07ffffff) .<< #27)) .+ ("m_6_3" .>> #27)) .+ "m_6_4") .+ (("m_6_5" .& #0x07ffffff) .<< #27)) .+ ("m_7_2" .>> #27)) .+ "m_7_3") .+ (("m_7_4" .& #0x07ffffff) .<< #27)) .+ ("m_8_1" .>> #27)) .+ "m_8_2") .+ (("m_8_3" .& #0x07ffffff) .<< #27)) .+ ("m_9_0" .>> #27)) .+ "m_9_1") .+ (("m_9_2" .& #0x07ffffff) .<< #27)) .+ "m_10_0") .+ (("m_10_1" .& #0x07ffffff) .<< #27)) .+ (("m_11_0" .& #0x07ffffff) .<< #27)) .+ "c4";
    (*1024*) "c5" <- "d5" .>> #54;
    (*1025*) "d6" <- ((((((((((((((((((((((((((((((((((((((("m_0_11" .>> #27) .+ "m_0_12") .+ (("m_0_13" .& #0x07ffffff) .<< #27)) .+ ("m_1_10" .>> #27)) .+ "m_1_11") .+ (("m_1_12" .& #0x07ffffff) .<< #27)) .+ ("m_2_9" .>> #27)) .+ "m_2_10") .+ (("m_2_11" .& #0x07ffffff) .<< #27)) .+ ("m_3_8" .>> #27)) .+ "m_3_9") .+ (("m_3_10" .& #0x07ffffff) .<< #27)) .+ ("m_4_7" .>> #27)) .+ "m_4_8") .+ (("m_4_9" .& #0x07ffffff) .<< #27)) .+ ("m_5_6" .>> #27)) .+ "m_5_7") .+ (("m_5_8" .& #0x07ffffff) .<< #27)) .+ ("m_6_5" .>> #27)) .+ "m_6_6") .+ (("m_6_7" .& #0x07ffffff) .<< #27)) .+ ("m_7_4" .>> #27)) .+ "m_7_5") .+ (("m_7_6" .& #0x07ffffff) .<< #27)) .+ ("m_8_3" .>> #27)) .+ "m_8_4") .+ (("m_8_5" .& #0x07ffffff) .<< #27)) .+ ("m_9_2" .>> #27)) .+ "m_9_3") .+ (("m_9_4" .& #0x07ffffff) .<< #27)) .+ ("m_10_1" .>> #27)) .+ "m_10_2") .+ (("m_10_3" .& #0x07ffffff) .<< #27)) .+ ("m_11_0" .>> #27)) .+ "m_11_1") .+ (("m_11_2" .& #0x07ffffff) .<< #27)) .+ "m_12_0") .+ (("m_12_1" .& #0x07ffffff) .<< #27)) .+ (("m_13_0" .& #0x07ffffff) .<< #27)) .+ "c5";
    (*1039*) "c6" <- "d6" .>> #54;
    (*1040*) "d7" <- ((((((((((((((((((((((((((((((((((((((((((((("m_0_13" .>> #27) .+ "m_0_14") .+ (("m_0_15" .& #0x07ffffff) .<< #27)) .+ ("m_1_12" .>> #27)) .+ "m_1_13") .+ (("m_1_14" .& #0x07ffffff) .<< #27)) .+ ("m_2_11" .>> #27)) .+ "m_2_12") .+ (("m_2_13" .& #0x07ffffff) .<< #27)) .+ ("m_3_10" .>> #27)) .+ "m_3_11") .+ (("m_3_12" .& #0x07ffffff) .<< #27)) .+ ("m_4_9" .>> #27)) .+ "m_4_10") .+ (("m_4_11" .& #0x07ffffff) .<< #27)) .+ ("m_5_8" .>> #27)) .+ "m_5_9") .+ (("m_5_10" .& #0x07ffffff) .<< #27)) .+ ("m_6_7" .>> #27)) .+ "m_6_8") .+ (("m_6_9" .& #0x07ffffff) .<< #27)) .+ ("m_7_6" .>> #27)) .+ "m_7_7") .+ (("m_7_8" .& #0x07ffffff) .<< #27)) .+ ("m_8_5" .>> #27)) .+ "m_8_6") .+ (("m_8_7" .& #0x07ffffff) .<< #27)) .+ ("m_9_4" .>> #27)) .+ "m_9_5") .+ (("m_9_6" .& #0x07ffffff) .<< #27)) .+ ("m_10_3" .>> #27)) .+ "m_10_4") .+ (("m_10_5" .& #0x07ffffff) .<< #27)) .+ ("m_11_2" .>> #27)) .+ "m_11_3") .+ (("m_11_4" .& #0x07ffffff) .<< #27)) .+ ("m_12_1" .>> #27)) .+ "m_12_2") .+ (("m_12_3" .& #0x07ffffff) .<< #27)) .+ ("m_13_0" .>> #27)) .+ "m_13_1") .+ (("m_13_2" .& #0x07ffffff) .<< #27)) .+ "m_14_0") .+ (("m_14_1" .& #0x07ffffff) .<< #27)) .+ (("m_15_0" .& #0x07ffffff) .<< #27)) .+ "c6";
    (*1056*) "c7" <- "d7" .>> #54;
    (*1057*) "d8" <- ((((((((((((((((((((((((((((((((((((((((((((((((((("m_0_15" .>> #27) .+ "m_0_16") .+ (("m_0_17" .& #0x07ffffff) .<< #27)) .+ ("m_1_14" .>> #27)) .+ "m_1_15") .+ (("m_1_16" .& #0x07ffffff) .<< #27)) .+ ("m_2_13" .>> #27)) .+ "m_2_14") .+ (("m_2_15" .& #0x07ffffff) .<< #27)) .+ ("m_3_12" .>> #27)) .+ "m_3_13") .+ (("m_3_14" .& #0x07ffffff) .<< #27)) .+ ("m_4_11" .>> #27)) .+ "m_4_12") .+ (("m_4_13" .& #0x07ffffff) .<< #27)) .+ ("m_5_10" .>> #27)) .+ "m_5_11") .+ (("m_5_12" .& #0x07ffffff) .<< #27)) .+ ("m_6_9" .>> #27)) .+ "m_6_10") .+ (("m_6_11" .& #0x07ffffff) .<< #27)) .+ ("m_7_8" .>> #27)) .+ "m_7_9") .+ (("m_7_10" .& #0x07ffffff) .<< #27)) .+ ("m_8_7" .>> #27)) .+ "m_8_8") .+ (("m_8_9" .& #0x07ffffff) .<< #27)) .+ ("m_9_6" .>> #27)) .+ "m_9_7") .+ (("m_9_8" .& #0x07ffffff) .<< #27)) .+ ("m_10_5" .>> #27)) .+ "m_10_6") .+ (("m_10_7" .& #0x07ffffff) .<< #27)) .+ ("m_11_4" .>> #27)) .+ "m_11_5") .+ (("m_11_6" .& #0x07ffffff) .<< #27)) .+ ("m_12_3" .>> #27)) .+ "m_12_4") .+ (("m_12_5" .& #0x07ffffff) .<< #27)) .+ ("m_13_2" .>> #27)) .+ "m_13_3") .+ (("m_13_4" .& #0x07ffffff) .<< #27)) .+ ("m_14_1" .>> #27)) .+ "m_14_2") .+ (("m_14_3" .& #0x07ffffff) .<< #27)) .+ ("m_15_0" .>> #27)) .+ "m_15_1") .+ (("m_15_2" .& #0x07ffffff) .<< #27)) .+ "m_16_0") .+ (("m_16_1" .& #0x07ffffff) .<< #27)) .+ (("m_17_0" .& #0x07ffffff) .<< #27)) .+ "c7";
    (*1075*) "c8" <- "d8" .>> #54;
    (*1076*) "d9" <- ((((((((((((((((((((((((((((((((((((((((((((((((((((((((("m_0_17" .>> #27) .+ "m_0_18") .+ (("m_0_19" .& #0x07ffffff) .<< #27)) .+ ("m_1_16" .>> #27)) .+ "m_1_17") .+ (("m_1_18" .& #0x07ffffff) .<< #27)) .+ ("m_2_15" .>> #27)) .+ "m_2_16") .+ (("m_2_17" .& #0x07ffffff) .<< #27)) .+ ("m_3_14" .>> #27)) .+ "m_3_15") .+ (("m_3_16" .& #0x07ffffff) .<< #27)) .+ ("m_4_13" .>> #27)) .+ "m_4_14") .+ (("m_4_15" .& #0x07ffffff) .<< #27)) .+ ("m_5_12" .>> #27)) .+ "m_5_13") .+ (("m_5_14" .& #0x07ffffff) .<< #27)) .+ ("m_6_11" .>> #27)) .+ "m_6_12") .+ (("m_6_13" .& #0x07ffffff) .<< #27)) .+ ("m_7_10" .>> #27)) .+ "m_7_11") .+ (("m_7_12" .& #0x07ffffff) .<< #27)) .+ ("m_8_9" .>> #27)) .+ "m_8_10") .+ (("m_8_11" .& #0x07ffffff) .<< #27)) .+ ("m_9_8" .>> #27)) .+ "m_9_9") .+ (("m_9_10" .& #0x07ffffff) .<< #27)) .+ ("m_10_7" .>> #27)) .+ "m_10_8") .+ (("m_10_9" .& #0x07ffffff) .<< #27)) .+ ("m_11_6" .>> #27)) .+ "m_11_7") .+ (("m_11_8" .& #0x07ffffff) .<< #27)) .+ ("m_12_5" .>> #27)) .+ "m_12_6") .+ (("m_12_7" .& #0x07ffffff) .<< #27)) .+ ("m_13_4" .>> #27)) .+ "m_13_5") .+ (("m_13_6" .& #0x07ffffff) .<< #27)) .+ ("m_14_3" .>> #27)) .+ "m_14_4") .+ (("m_14_5" .& #0x07ffffff) .<< #27)) .+ ("m_15_2" .>> #27)) .+ "m_15_3") .+ (("m_15_4" .& #0x07ffffff) .<< #27)) .+ ("m_16_1" .>> #27)) .+ "m_16_2") .+ (("m_16_3" .& #0x07ffffff) .<< #27)) .+ ("m_17_0" .>> #27)) .+ "m_17_1") .+ (("m_17_2" .& #0x07ffffff) .<< #27)) .+ "m_18_0") .+ (("m_18_1" .& #0x07ffffff) .<< #27)) .+ (("m_19_0" .& #0x07ffffff) .<< #27)) .+ "c8";
    (*1096*) "c9" <- "d9" .>> #54;
    (*1097*) "d10" <- ((((((((((((((((((((((((((((((((((((((((((((((((((((((((("m_0_19" .>> #27) .+ ("m_1_18" .>> #27)) .+ "m_1_19") .+ ("m_2_17" .>> #27)) .+ "m_2_18") .+ (("m_2_19" .& #0x07ffffff) .<< #27)) .+ ("m_3_16" .>> #27)) .+ "m_3_17") .+ (("m_3_18" .& #0x07ffffff) .<< #27)) .+ ("m_4_15" .>> #27)) .+ "m_4_16") .+ (("m_4_17" .& #0x07ffffff) .<< #27)) .+ ("m_5_14" .>> #27)) .+ "m_5_15") .+ (("m_5_16" .& #0x07ffffff) .<< #27)) .+ ("m_6_13" .>> #27)) .+ "m_6_14") .+ (("m_6_15" .& #0x07ffffff) .<< #27)) .+ ("m_7_12" .>> #27)) .+ "m_7_13") .+ (("m_7_14" .& #0x07ffffff) .<< #27)) .+ ("m_8_11" .>> #27)) .+ "m_8_12") .+ (("m_8_13" .& #0x07ffffff) .<< #27)) .+ ("m_9_10" .>> #27)) .+ "m_9_11") .+ (("m_9_12" .& #0x07ffffff) .<< #27)) .+ ("m_10_9" .>> #27)) .+ "m_10_10") .+ (("m_10_11" .& #0x07ffffff) .<< #27)) .+ ("m_11_8" .>> #27)) .+ "m_11_9") .+ (("m_11_10" .& #0x07ffffff) .<< #27)) .+ ("m_12_7" .>> #27)) .+ "m_12_8") .+ (("m_12_9" .& #0x07ffffff) .<< #27)) .+ ("m_13_6" .>> #27)) .+ "m_13_7") .+ (("m_13_8" .& #0x07ffffff) .<< #27)) .+ ("m_14_5" .>> #27)) .+ "m_14_6") .+ (("m_14_7" .& #0x07ffffff) .<< #27)) .+ ("m_15_4" .>> #27)) .+ "m_15_5") .+ (("m_15_6" .& #0x07ffffff) .<< #27)) .+ ("m_16_3" .>> #27)) .+ "m_16_4") .+ (("m_16_5" .& #0x07ffffff) .<< #27)) .+ ("m_17_2" .>> #27)) .+ "m_17_3") .+ (("m_17_4" .& #0x07ffffff) .<< #27)) .+ ("m_18_1" .>> #27)) .+ "m_18_2") .+ (("m_18_3" .& #0x07ffffff) .<< #27)) .+ ("m_19_0" .>> #27)) .+ "m_19_1") .+ (("m_19_2" .& #0x07ffffff) .<< #27)) .+ "c9";
    (*1117*) "c10" <- "d10" .>> #54;
    (*1118*) "d11" <- ((((((((((((((((((((((((((((((((((((((((((((((((((("m_2_19" .>> #27) .+ ("m_3_18" .>> #27)) .+ "m_3_19") .+ ("m_4_17" .>> #27)) .+ "m_4_18") .+ (("m_4_19" .& #0x07ffffff) .<< #27)) .+ ("m_5_16" .>> #27)) .+ "m_5_17") .+ (("m_5_18" .& #0x07ffffff) .<< #27)) .+ ("m_6_15" .>> #27)) .+ "m_6_16") .+ (("m_6_17" .& #0x07ffffff) .<< #27)) .+ ("m_7_14" .>> #27)) .+ "m_7_15") .+ (("m_7_16" .& #0x07ffffff) .<< #27)) .+ ("m_8_13" .>> #27)) .+ "m_8_14") .+ (("m_8_15" .& #0x07ffffff) .<< #27)) .+ ("m_9_12" .>> #27)) .+ "m_9_13") .+ (("m_9_14" .& #0x07ffffff) .<< #27)) .+ ("m_10_11" .>> #27)) .+ "m_10_12") .+ (("m_10_13" .& #0x07ffffff) .<< #27)) .+ ("m_11_10" .>> #27)) .+ "m_11_11") .+ (("m_11_12" .& #0x07ffffff) .<< #27)) .+ ("m_12_9" .>> #27)) .+ "m_12_10") .+ (("m_12_11" .& #0x07ffffff) .<< #27)) .+ ("m_13_8" .>> #27)) .+ "m_13_9") .+ (("m_13_10" .& #0x07ffffff) .<< #27)) .+ ("m_14_7" .>> #27)) .+ "m_14_8") .+ (("m_14_9" .& #0x07ffffff) .<< #27)) .+ ("m_15_6" .>> #27)) .+ "m_15_7") .+ (("m_15_8" .& #0x07ffffff) .<< #27)) .+ ("m_16_5" .>> #27)) .+ "m_16_6") .+ (("m_16_7" .& #0x07ffffff) .<< #27)) .+ ("m_17_4" .>> #27)) .+ "m_17_5") .+ (("m_17_6" .& #0x07ffffff) .<< #27)) .+ ("m_18_3" .>> #27)) .+ "m_18_4") .+ (("m_18_5" .& #0x07ffffff) .<< #27)) .+ ("m_19_2" .>> #27)) .+ "m_19_3") .+ (("m_19_4" .& #0x07ffffff) .<< #27)) .+ "c10";
    (*1136*) "c11" <- "d11" .>> #54;
    (*1137*) "d12" <- ((((((((((((((((((((((((((((((((((((((((((((("m_4_19" .>> #27) .+ ("m_5_18" .>> #27)) .+ "m_5_19") .+ ("m_6_17" .>> #27)) .+ "m_6_18") .+ (("m_6_19" .& #0x07ffffff) .<< #27)) .+ ("m_7_16" .>> #27)) .+ "m_7_17") .+ (("m_7_18" .& #0x07ffffff) .<< #27)) .+ ("m_8_15" .>> #27)) .+ "m_8_16") .+ (("m_8_17" .& #0x07ffffff) .<< #27)) .+ ("m_9_14" .>> #27)) .+ "m_9_15") .+ (("m_9_16" .& #0x07ffffff) .<< #27)) .+ ("m_10_13" .>> #27)) .+ "m_10_14") .+ (("m_10_15" .& #0x07ffffff) .<< #27)) .+ ("m_11_12" .>> #27)) .+ "m_11_13") .+ (("m_11_14" .& #0x07ffffff) .<< #27)) .+ ("m_12_11" .>> #27)) .+ "m_12_12") .+ (("m_12_13" .& #0x07ffffff) .<< #27)) .+ ("m_13_10" .>> #27)) .+ "m_13_11") .+ (("m_13_12" .& #0x07ffffff) .<< #27)) .+ ("m_14_9" .>> #27)) .+ "m_14_10") .+ (("m_14_11" .& #0x07ffffff) .<< #27)) .+ ("m_15_8" .>> #27)) .+ "m_15_9") .+ (("m_15_10" .& #0x07ffffff) .<< #27)) .+ ("m_16_7" .>> #27)) .+ "m_16_8") .+ (("m_16_9" .& #0x07ffffff) .<< #27)) .+ ("m_17_6" .>> #27)) .+ "m_17_7") .+ (("m_17_8" .& #0x07ffffff) .<< #27)) .+ ("m_18_5" .>> #27)) .+ "m_18_6") .+ (("m_18_7" .& #0x07ffffff) .<< #27)) .+ ("m_19_4" .>> #27)) .+ "m_19_5") .+ (("m_19_6" .& #0x07ffffff) .<< #27)) .+ "c11";
    (*1153*) "c12" <- "d12" .>> #54;
    (*1154*) "d13" <- ((((((((((((((((((((((((((((((((((((((("m_6_19" .>> #27) .+ ("m_7_18" .>> #27)) .+ "m_7_19") .+ ("m_8_17" .>> #27)) .+ "m_8_18") .+ (("m_8_19" .& #0x07ffffff) .<< #27)) .+ ("m_9_16" .>> #27)) .+ "m_9_17") .+ (("m_9_18" .& #0x07ffffff) .<< #27)) .+ ("m_10_15" .>> #27)) .+ "m_10_16") .+ (("m_10_17" .& #0x07ffffff) .<< #27)) .+ ("m_11_14" .>> #27)) .+ "m_11_15") .+ (("m_11_16" .& #0x07ffffff) .<< #27)) .+ ("m_12_13" .>> #27)) .+ "m_12_14") .+ (("m_12_15" .& #0x07ffffff) .<< #27)) .+ ("m_13_12" .>> #27)) .+ "m_13_13") .+ (("m_13_14" .& #0x07ffffff) .<< #27)) .+ ("m_14_11" .>> #27)) .+ "m_14_12") .+ (("m_14_13" .& #0x07ffffff) .<< #27)) .+ ("m_15_10" .>> #27)) .+ "m_15_11") .+ (("m_15_12" .& #0x07ffffff) .<< #27)) .+ ("m_16_9" .>> #27)) .+ "m_16_10") .+ (("m_16_11" .& #0x07ffffff) .<< #27)) .+ ("m_17_8" .>> #27)) .+ "m_17_9") .+ (("m_17_10" .& #0x07ffffff) .<< #27)) .+ ("m_18_7" .>> #27)) .+ "m_18_8") .+ (("m_18_9" .& #0x07ffffff) .<< #27)) .+ ("m_19_6" .>> #27)) .+ "m_19_7") .+ (("m_19_8" .& #0x07ffffff) .<< #27)) .+ "c12";
    (*1168*) "c13" <- "d13" .>> #54;
    (*1169*) "d14" <- ((((((((((((((((((((((((((((((((("m_8_19" .>> #27) .+ ("m_9_18" .>> #27)) .+ "m_9_19") .+ ("m_10_17" .>> #27)) .+ "m_10_18") .+ (("m_10_19" .& #0x07ffffff) .<< #27)) .+ ("m_11_16" .>> #27)) .+ "m_11_17") .+ (("m_11_18" .& #0x07ffffff) .<< #27)) .+ ("m_12_15" .>> #27)) .+ "m_12_16") .+ (("m_12_17" .& #0x07ffffff) .<< #27)) .+ ("m_13_14" .>> #27)) .+ "m_13_15") .+ (("m_13_16" .& #0x07ffffff) .<< #27)) .+ ("m_14_13" .>> #27)) .+ "m_14_14") .+ (("m_14_15" .& #0x07ffffff) .<< #27)) .+ ("m_15_12" .>> #27)) .+ "m_15_13") .+ (("m_15_14" .& #0x07ffffff) .<< #27)) .+ ("m_16_11" .>> #27)) .+ "m_16_12") .+ (("m_16_13" .& #0x07ffffff) .<< #27)) .+ ("m_17_10" .>> #27)) .+ "m_17_11") .+ (("m_17_12" .& #0x07ffffff) .<< #27)) .+ ("m_18_9" .>> #27)) .+ "m_18_10") .+ (("m_18_11" .& #0x07ffffff) .<< #27)) .+ ("m_19_8" .>> #27)) .+ "m_19_9") .+ (("m_19_10" .& #0x07ffffff) .<< #27)) .+ "c13";
    (*1182*) "c14" <- "d14" .>> #54;
    (*1183*) "d15" <- ((((((((((((((((((((((((((("m_10_19" .>> #27) .+ ("m_11_18" .>> #27)) .+ "m_11_19") .+ ("m_12_17" .>> #27)) .+ "m_12_18") .+ (("m_12_19" .& #0x07ffffff) .<< #27)) .+ ("m_13_16" .>> #27)) .+ "m_13_17") .+ (("m_13_18" .& #0x07ffffff) .<< #27)) .+ ("m_14_15" .>> #27)) .+ "m_14_16") .+ (("m_14_17" .& #0x07ffffff) .<< #27)) .+ ("m_15_14" .>> #27)) .+ "m_15_15") .+ (("m_15_16" .& #0x07ffffff) .<< #27)) .+ ("m_16_13" .>> #27)) .+ "m_16_14") .+ (("m_16_15" .& #0x07ffffff) .<< #27)) .+ ("m_17_12" .>> #27)) .+ "m_17_13") .+ (("m_17_14" .& #0x07ffffff) .<< #27)) .+ ("m_18_11" .>> #27)) .+ "m_18_12") .+ (("m_18_13" .& #0x07ffffff) .<< #27)) .+ ("m_19_10" .>> #27)) .+ "m_19_11") .+ (("m_19_12" .& #0x07ffffff) .<< #27)) .+ "c14";
    (*1194*) "c15" <- "d15" .>> #54;
    (*1195*) "d16" <- ((((((((((((((((((((("m_12_19" .>> #27) .+ ("m_13_18" .>> #27)) .+ "m_13_19") .+ ("m_14_17" .>> #27)) .+ "m_14_18") .+ (("m_14_19" .& #0x07ffffff) .<< #27)) .+ ("m_15_16" .>> #27)) .+ "m_15_17") .+ (("m_15_18" .& #0x07ffffff) .<< #27)) .+ ("m_16_15" .>> #27)) .+ "m_16_16") .+ (("m_16_17" .& #0x07ffffff) .<< #27)) .+ ("m_17_14" .>> #27)) .+ "m_17_15") .+ (("m_17_16" .& #0x07ffffff) .<< #27)) .+ ("m_18_13" .>> #27)) .+ "m_18_14") .+ (("m_18_15" .& #0x07ffffff) .<< #27)) .+ ("m_19_12" .>> #27)) .+ "m_19_13") .+ (("m_19_14" .& #0x07ffffff) .<< #27)) .+ "c15";
    (*1204*) "c16" <- "d16" .>> #54;
    (*1205*) "d17" <- ((((((((((((((("m_14_19" .>> #27) .+ ("m_15_18" .>> #27)) .+ "m_15_19") .+ ("m_16_17" .>> #27)) .+ "m_16_18") .+ (("m_16_19" .& #0x07ffffff) .<< #27)) .+ ("m_17_16" .>> #27)) .+ "m_17_17") .+ (("m_17_18" .& #0x07ffffff) .<< #27)) .+ ("m_18_15" .>> #27)) .+ "m_18_16") .+ (("m_18_17" .& #0x07ffffff) .<< #27)) .+ ("m_19_14" .>> #27)) .+ "m_19_15") .+ (("m_19_16" .& #0x07ffffff) .<< #27)) .+ "c16";
    (*1212*) "c17" <- "d17" .>> #54;
    (*1213*) "d18" <- ((((((((("m_16_19" .>> #27) .+ ("m_17_18" .>> #27)) .+ "m_17_19") .+ ("m_18_17" .>> #27)) .+ "m_18_18") .+ (("m_18_19" .& #0x07ffffff) .<< #27)) .+ ("m_19_16" .>> #27)) .+ "m_19_17") .+ (("m_19_18" .& #0x07ffffff) .<< #27)) .+ "c17";
    (*1218*) "c18" <- "d18" .>> #54;
    (*1219*) "d19" <- ((("m_18_19" .>> #27) .+ ("m_19_18" .>> #27)) .+ "m_19_19") .+ "c18";
    (*1225*) "l0_0" <- "d0" .& #0x003fffffffffffff;
    (*1226*) "l1_0" <- "d1" .& #0x003fffffffffffff;
    (*1227*) "l2_0" <- "d2" .& #0x003fffffffffffff;
    (*1228*) "l3_0" <- "d3" .& #0x003fffffffffffff;
    (*1229*) "l4_0" <- "d4" .& #0x003fffffffffffff;
    (*1230*) "l5_0" <- "d5" .& #0x003fffffffffffff;
    (*1231*) "l6_0" <- "d6" .& #0x003fffffffffffff;
    (*1232*) "l7_0" <- "d7" .& #0x003fffffffffffff;
    (*1233*) "l8_0" <- "d8" .& #0x003fffffffffffff;
    (*1234*) "l9_0" <- "d9" .& #0x00000007ffffffff;
    (*1237*) "h0_0" <- (("d9" .& #0x003fffffffffffff) .>> #35) .| (("d10" .& #0x00000007ffffffff) .<< #19);
    (*1239*) "h1_0" <- (("d10" .& #0x003fffffffffffff) .>> #35) .| (("d11" .& #0x00000007ffffffff) .<< #19);
    (*1241*) "h2_0" <- (("d11" .& #0x003fffffffffffff) .>> #35) .| (("d12" .& #0x00000007ffffffff) .<< #19);
    (*1243*) "h3_0" <- (("d12" .& #0x003fffffffffffff) .>> #35) .| (("d13" .& #0x00000007ffffffff) .<< #19);
    (*1245*) "h4_0" <- (("d13" .& #0x003fffffffffffff) .>> #35) .| (("d14" .& #0x00000007ffffffff) .<< #19);
    (*1247*) "h5_0" <- (("d14" .& #0x003fffffffffffff) .>> #35) .| (("d15" .& #0x00000007ffffffff) .<< #19);
    (*1249*) "h6_0" <- (("d15" .& #0x003fffffffffffff) .>> #35) .| (("d16" .& #0x00000007ffffffff) .<< #19);
    (*1251*) "h7_0" <- (("d16" .& #0x003fffffffffffff) .>> #35) .| (("d17" .& #0x00000007ffffffff) .<< #19);
    (*1253*) "h8_0" <- (("d17" .& #0x003fffffffffffff) .>> #35) .| (("d18" .& #0x00000007ffffffff) .<< #19);
    (*1255*) "h9_0" <- (("d18" .& #0x003fffffffffffff) .>> #35) .| ("d19" .<< #19);
    (*1263*) "kin_0" <- "h9_0" .>> #35;
    (*1264*) "s0_0" <- ("l0_0" .+ "h0_0") .+ "kin_0";
    (*1265*) "k0_0" <- "s0_0" .>> #54;
    (*1266*) "s1_0" <- ("l1_0" .+ "h1_0") .+ "k0_0";
    (*1267*) "k1_0" <- "s1_0" .>> #54;
    (*1268*) "s2_0" <- ("l2_0" .+ "h2_0") .+ "k1_0";
    (*1269*) "k2_0" <- "s2_0" .>> #54;
    (*1270*) "s3_0" <- ("l3_0" .+ "h3_0") .+ "k2_0";
    (*1271*) "k3_0" <- "s3_0" .>> #54;
    (*1272*) "s4_0" <- ("l4_0" .+ "h4_0") .+ "k3_0";
    (*1273*) "k4_0" <- "s4_0" .>> #54;
    (*1274*) "s5_0" <- ("l5_0" .+ "h5_0") .+ "k4_0";
    (*1275*) "k5_0" <- "s5_0" .>> #54;
    (*1276*) "s6_0" <- ("l6_0" .+ "h6_0") .+ "k5_0";
    (*1277*) "k6_0" <- "s6_0" .>> #54;
    (*1278*) "s7_0" <- ("l7_0" .+ "h7_0") .+ "k6_0";
    (*1279*) "k7_0" <- "s7_0" .>> #54;
    (*1280*) "s8_0" <- ("l8_0" .+ "h8_0") .+ "k7_0";
    (*1281*) "k8_0" <- "s8_0" .>> #54;
    (*1282*) "s9_0" <- ("l9_0" .+ ("h9_0" .& #0x00000007ffffffff)) .+ "k8_0";
    (*1284*) SSet "self" #0 ("s0_0" .& #0x003fffffffffffff);
    (*1285*) SSet "self" #1 ("s1_0" .& #0x003fffffffffffff);
    (*1286*) SSet "self" #2 ("s2_0" .& #0x003fffffffffffff);
    (*1287*) SSet "self" #3 ("s3_0" .& #0x003fffffffffffff);
    (*1288*) SSet "self" #4 ("s4_0" .& #0x003fffffffffffff);
    (*1289*) SSet "self" #5 ("s5_0" .& #0x003fffffffffffff);
    (*1290*) SSet "self" #6 ("s6_0" .& #0x003fffffffffffff);
    (*1291*) SSet "self" #7 ("s7_0" .& #0x003fffffffffffff);
    (*1292*) SSet "self" #8 ("s8_0" .& #0x003fffffffffffff);
    (*1293*) SSet "self" #9 ("s9_0") ]
    [].

(* src/field/mod_e521_1.rs:1298-1300  MulAssign<F>  F::mul_assign(F) *)
Definition f_mul_assign_val : func := mkfunc ["self"; "rhs"] [
    (*1299*) SCall [] "F::mul_assign(&F)" [AMut "self"; AVal "rhs"] ]
    [].

(* src/field/mod_e521_1.rs:1306-1308  Mul<&F>  i32::mul(&F) *)
Definition f_i32_mul_ref : func := mkfunc ["self"; "a"] [
    (*1307*) SCall ["%1"] "F::small_mul" [AVal "a"; AVal "self"] ]
    [EVar "%1"].

(* src/field/mod_e521_1.rs:1314-1316  Mul<&F>  i16::mul(&F) *)
Definition f_i16_mul_ref : func := mkfunc ["self"; "a"] [
    (*1315*) SCall ["%1"] "F::small_mul" [AVal "a"; AVal (ECast I32 "self")] ]
    [EVar "%1"].

(* src/field/mod_e521_1.rs:1322-1324  Mul<&F>  i8::mul(&F) *)
Definition f_i8_mul_ref : func := mkfunc ["self"; "a"] [
    (*1323*) SCall ["%1"] "F::small_mul" [AVal "a"; AVal (ECast I32 "self")] ]
    [EVar "%1"].

(* src/field/mod_e521_1.rs:1330-1332  Mul<i32>  (&F)::mul(i32) *)
Definition f_ref_mul_i32 : func := mkfunc ["self"; "a"] [
    (*1331*) SCall ["%1"] "F::small_mul" [AVal "self"; AVal "a"] ]
    [EVar "%1"].

(* src/field/mod_e521_1.rs:1338-1340  Mul<i16>  (&F)::mul(i16) *)
Definition f_ref_mul_i16 : func := mkfunc ["self"; "a"] [
    (*1339*) SCall ["%1"] "F::small_mul" [AVal "self"; AVal (ECast I32 "a")] ]
    [EVar "%1"].

(* src/field/mod_e521_1.rs:1346-1348  Mul<i8>  (&F)::mul(i8) *)
Definition f_ref_mul_i8 : func := mkfunc ["self"; "a"] [
    (*1347*) SCall ["%1"] "F::small_mul" [AVal "self"; AVal (ECast I32 "a")] ]
    [EVar "%1"].

(* src/field/mod_e521_1.rs:1354-1356  Mul<i32>  F::mul(i32) *)
Definition f_mul_i32 : func := mkfunc ["self"; "a"] [
    (*1355*) SCall ["%1"] "(&F)::mul(i32)" [AVal "self"; AVal "a"] ]
    [EVar "%1"].

(* src/field/mod_e521_1.rs:1362-1364  Mul<i16>  F::mul(i16) *)
Definition f_mul_i16 : func := mkfunc ["self"; "a"] [
    (*1363*) SCall ["%1"] "(&F)::mul(i16)" [AVal "self"; AVal "a"] ]
    [EVar "%1"].

(* src/field/mod_e521_1.rs:1370-1372  Mul<i8>  F::mul(i8) *)
Definition f_mul_i8 : func := mkfunc ["self"; "a"] [
    (*1371*) SCall ["%1"] "(&F)::mul(i8)" [AVal "self"; AVal "a"] ]
    [EVar "%1"].

(* src/field/mod_e521_1.rs:1378-1382  Mul<&F>  (&F)::mul(&F) *)
Definition f_ref_mul_ref : func := mkfunc ["self"; "a"] [
    (*1379*) "out" <- "self";
    (*1380*) SCall [] "F::mul_assign(&F)" [AMut "out"; AVal "a"] ]
    [EVar "out"].

(* src/field/mod_e521_1.rs:1388-1390  Mul<F>  F::mul(F) *)
Definition f_mul_val : func := mkfunc ["self"; "a"] [
    (*1389*) SCall ["%1"] "(&F)::mul(&F)" [AVal "self"; AVal "a"] ]
    [EVar "%1"].

(* src/field/mod_e521_1.rs:1394-1402  Rand  F::rand *)
Definition f_rand : func := mkfunc ["rng"] [
    (*1395*) "out" <- ERep #0 10;
    (*1397*) SFor "i" #0 #10 [
      (*1398*) SGenRange "%1" "rng" #0 ((ELit MODULUS).["i"]);
      (*1398*) SSet "out" "i" ("%1") ] ]
    [EVar "out"].

(* src/field/mod_e521_1.rs:1406-1480  Pack  F::unpack *)
Definition f_unpack : func := mkfunc ["self"; "bytes"] [
    (*1407*) SSet "self" #0 ((((((((ECast I64 ("bytes".[#0])) .& #0x00000000000000ff) .| (((ECast I64 ("bytes".[#1])) .<< #8) .& #0x000000000000ff00)) .| (((ECast I64 ("bytes".[#2])) .<< #16) .& #0x0000000000ff0000)) .| (((ECast I64 ("bytes".[#3])) .<< #24) .& #0x00000000ff000000)) .| (((ECast I64 ("bytes".[#4])) .<< #32) .& #0x000000ff00000000)) .| (((ECast I64 ("bytes".[#5])) .<< #40) .& #0x0000ff0000000000)) .| (((ECast I64 ("bytes".[#6])) .<< #48) .& #0x003f000000000000));
    (*1414*) SSet "self" #1 ((((((((((ECast I64 ("bytes".[#6])) .>> #6) .& #0x0000000000000003) .| (((ECast I64 ("bytes".[#7])) .<< #2) .& #0x00000000000003fc)) .| (((ECast I64 ("bytes".[#8])) .<< #10) .& #0x000000000003fc00)) .| (((ECast I64 ("bytes".[#9])) .<< #18) .& #0x0000000003fc0000)) .| (((ECast I64 ("bytes".[#10])) .<< #26) .& #0x00000003fc000000)) .| (((ECast I64 ("bytes".[#11])) .<< #34) .& #0x000003fc00000000)) .| (((ECast I64 ("bytes".[#12])) .<< #42) .& #0x0003fc0000000000)) .| (((ECast I64 ("bytes".[#13])) .<< #50) .& #0x003c000000000000));
    (*1422*) SSet "self" #2 ((((((((((ECast I64 ("bytes".[#13])) .>> #4) .& #0x000000000000000f) .| (((ECast I64 ("bytes".[#14])) .<< #4) .& #0x0000000000000ff0)) .| (((ECast I64 ("bytes".[#15])) .<< #12) .& #0x00000000000ff000)) .| (((ECast I64 ("bytes".[#16])) .<< #20) .& #0x000000000ff00000)) .| (((ECast I64 ("bytes".[#17])) .<< #28) .& #0x0000000ff0000000)) .| (((ECast I64 ("bytes".[#18])) .<< #36) .& #0x00000ff000000000)) .| (((ECast I64 ("bytes".[#19])) .<< #44) .& #0x000ff00000000000)) .| (((ECast I64 ("bytes".[#20])) .<< #52) .& #0x0030000000000000));
    (*1430*) SSet "self" #3 (((((((((ECast I64 ("bytes".[#20])) .>> #2) .& #0x000000000000003f) .| (((ECast I64 ("bytes".[#21])) .<< #6) .& #0x0000000000003fc0)) .| (((ECast I64 ("bytes".[#22])) .<< #14) .& #0x00000000003fc000)) .| (((ECast I64 ("bytes".[#23])) .<< #22) .& #0x000000003fc00000)) .| (((ECast I64 ("bytes".[#24])) .<< #30) .& #0x0000003fc0000000)) .| (((ECast I64 ("bytes".[#25])) .<< #38) .& #0x00003fc000000000)) .| (((ECast I64 ("bytes".[#26])) .<< #46) .& #0x003fc00000000000));
    (*1437*) SSet "self" #4 ((((((((ECast I64 ("bytes".[#27])) .& #0x00000000000000ff) .| (((ECast I64 ("bytes".[#28])) .<< #8) .& #0x000000000000ff00)) .| (((ECast I64 ("bytes".[#29])) .<< #16) .& #0x0000000000ff0000)) .| (((ECast I64 ("bytes".[#30])) .<< #24) .& #0x00000000ff000000)) .| (((ECast I64 ("bytes".[#31])) .<< #32) .& #0x000000ff00000000)) .| (((ECast I64 ("bytes".[#32])) .<< #40) .& #0x0000ff0000000000)) .| (((ECast I64 ("bytes".[#33])) .<< #48) .& #0x003f000000000000));
    (*1444*) SSet "self" #5 ((((((((((ECast I64 ("bytes".[#33])) .>> #6) .& #0x0000000000000003) .| (((ECast I64 ("bytes".[#34])) .<< #2) .& #0x00000000000003fc)) .| (((ECast I64 ("bytes".[#35])) .<< #10) .& #0x000000000003fc00)) .| (((ECast I64 ("bytes".[#36])) .<< #18) .& #0x0000000003fc0000)) .| (((ECast I64 ("bytes".[#37])) .<< #26) .& #0x00000003fc000000)) .| (((ECast I64 ("bytes".[#38])) .<< #34) .& #0x000003fc00000000)) .| (((ECast I64 ("bytes".[#39])) .<< #42) .& #0x0003fc0000000000)) .| (((ECast I64 ("bytes".[#40])) .<< #50) .& #0x003c000000000000));
    (*1452*) SSet "self" #6 ((((((((((ECast I64 ("bytes".[#40])) .>> #4) .& #0x000000000000000f) .| (((ECast I64 ("bytes".[#41])) .<< #4) .& #0x0000000000000ff0)) .| (((ECast I64 ("bytes".[#42])) .<< #12) .& #0x00000000000ff000)) .| (((ECast I64 ("bytes".[#43])) .<< #20) .& #0x000000000ff00000)) .| (((ECast I64 ("bytes".[#44])) .<< #28) .& #0x0000000ff0000000)) .| (((ECast I64 ("bytes".[#45])) .<< #36) .& #0x00000ff000000000)) .| (((ECast I64 ("bytes".[#46])) .<< #44) .& #0x000ff00000000000)) .| (((ECast I64 ("bytes".[#47])) .<< #52) .& #0x0030000000000000));
    (*1460*) SSet "self" #7 (((((((((ECast I64 ("bytes".[#47])) .>> #2) .& #0x000000000000003f) .| (((ECast I64 ("bytes".[#48])) .<< #6) .& #0x0000000000003fc0)) .| (((ECast I64 ("bytes".[#49])) .<< #14) .& #0x00000000003fc000)) .| (((ECast I64 ("bytes".[#50])) .<< #22) .& #0x000000003fc00000)) .| (((ECast I64 ("bytes".[#51])) .<< #30) .& #0x0000003fc0000000)) .| (((ECast I64 ("bytes".[#52])) .<< #38) .& #0x00003fc000000000)) .| (((ECast I64 ("bytes".[#53])) .<< #46) .& #0x003fc00000000000));
    (*1467*) SSet "self" #8 ((((((((ECast I64 ("bytes".[#54])) .& #0x00000000000000ff) .| (((ECast I64 ("bytes".[#55])) .<< #8) .& #0x000000000000ff00)) .| (((ECast I64 ("bytes".[#56])) .<< #16) .& #0x0000000000ff0000)) .| (((ECast I64 ("bytes".[#57])) .<< #24) .& #0x00000000ff000000)) .| (((ECast I64 ("bytes".[#58])) .<< #32) .& #0x000000ff00000000)) .| (((ECast I64 ("bytes".[#59])) .<< #40) .& #0x0000ff0000000000)) .| (((ECast I64 ("bytes".[#60])) .<< #48) .& #0x003f000000000000));
    (*1474*) SSet "self" #9 ((((((((ECast I64 ("bytes".[#60])) .>> #6) .& #0x0000000000000003) .| (((ECast I64 ("bytes".[#61])) .<< #2) .& #0x00000000000003fc)) .| (((ECast I64 ("bytes".[#62])) .<< #10) .& #0x000000000003fc00)) .| (((ECast I64 ("bytes".[#63])) .<< #18) .& #0x0000000003fc0000)) .| (((ECast I64 ("bytes".[#64])) .<< #26) .& #0x00000003fc000000)) .| (((ECast I64 ("bytes".[#65])) .<< #34) .& #0x0000000400000000)) ]
    [].

(* src/field/mod_e521_1.rs:1482-1486  Pack  F::unpacked *)
Definition f_unpacked : func := mkfunc ["bytes"] [
    (*1483*) "out" <- ELit ZERO;
    (*1484*) SCall [] "F::unpack" [AMut "out"; AVal "bytes"] ]
    [EVar "out"].

(* src/field/mod_e521_1.rs:1488-1491  Pack  F::pack *)
Definition f_pack : func := mkfunc ["self"; "bytes"] [
    (*1489*) SCall [] "F::normalize" [AMut "self"];
    (*1490*) SCall [] "F::pack_normalized" [AVal "self"; AMut "bytes"] ]
    [].

(* src/field/mod_e521_1.rs:1493-1567  Pack  F::pack_normalized *)
Definition f_pack_normalized : func := mkfunc ["self"; "bytes"] [
    (*1494*) SSet "bytes" #0 (ECast U8 (("self".[#0]) .& #255));
    (*1495*) SSet "bytes" #1 (ECast U8 ((("self".[#0]) .>> #8) .& #255));
    (*1496*) SSet "bytes" #2 (ECast U8 ((("self".[#0]) .>> #16) .& #255));
    (*1497*) SSet "bytes" #3 (ECast U8 ((("self".[#0]) .>> #24) .& #255));
    (*1498*) SSet "bytes" #4 (ECast U8 ((("self".[#0]) .>> #32) .& #255));
    (*1499*) SSet "bytes" #5 (ECast U8 ((("self".[#0]) .>> #40) .& #255));
    (*1500*) SSet "bytes" #6 (ECast U8 (((("self".[#0]) .>> #48) .& #63) .| ((("self".[#1]) .<< #6) .& #192)));
    (*1502*) SSet "bytes" #7 (ECast U8 ((("self".[#1]) .>> #2) .& #255));
    (*1503*) SSet "bytes" #8 (ECast U8 ((("self".[#1]) .>> #10) .& #255));
    (*1504*) SSet "bytes" #9 (ECast U8 ((("self".[#1]) .>> #18) .& #255));
    (*1505*) SSet "bytes" #10 (ECast U8 ((("self".[#1]) .>> #26) .& #255));
    (*1506*) SSet "bytes" #11 (ECast U8 ((("self".[#1]) .>> #34) .& #255));
    (*1507*) SSet "bytes" #12 (ECast U8 ((("self".[#1]) .>> #42) .& #255));
    (*1508*) SSet "bytes" #13 (ECast U8 (((("self".[#1]) .>> #50) .& #15) .| ((("self".[#2]) .<< #4) .& #240)));
    (*1510*) SSet "bytes" #14 (ECast U8 ((("self".[#2]) .>> #4) .& #255));
    (*1511*) SSet "bytes" #15 (ECast U8 ((("self".[#2]) .>> #12) .& #255));
    (*1512*) SSet "bytes" #16 (ECast U8 ((("self".[#2]) .>> #20) .& #255));
    (*1513*) SSet "bytes" #17 (ECast U8 ((("self".[#2]) .>> #28) .& #255));
    (*1514*) SSet "bytes" #18 (ECast U8 ((("self".[#2]) .>> #36) .& #255));
    (*1515*) SSet "bytes" #19 (ECast U8 ((("self".[#2]) .>> #44) .& #255));
    (*1516*) SSet "bytes" #20 (ECast U8 (((("self".[#2]) .>> #52) .& #3) .| ((("self".[#3]) .<< #2) .& #252)));
    (*1518*) SSet "bytes" #21 (ECast U8 ((("self".[#3]) .>> #6) .& #255));
    (*1519*) SSet "bytes" #22 (ECast U8 ((("self".[#3]) .>> #14) .& #255));
    (*1520*) SSet "bytes" #23 (ECast U8 ((("self".[#3]) .>> #22) .& #255));
    (*1521*) SSet "bytes" #24 (ECast U8 ((("self".[#3]) .>> #30) .& #255));
    (*1522*) SSet "bytes" #25 (ECast U8 ((("self".[#3]) .>> #38) .& #255));
    (*1523*) SSet "bytes" #26 (ECast U8 ((("self".[#3]) .>> #46) .& #255));
    (*1524*) SSet "bytes" #27 (ECast U8 (("self".[#4]) .& #255));
    (*1525*) SSet "bytes" #28 (ECast U8 ((("self".[#4]) .>> #8) .& #255));
    (*1526*) SSet "bytes" #29 (ECast U8 ((("self".[#4]) .>> #16) .& #255));
    (*1527*) SSet "bytes" #30 (ECast U8 ((("self".[#4]) .>> #24) .& #255));
    (*1528*) SSet "bytes" #31 (ECast U8 ((("self".[#4]) .>> #32) .& #255));
    (*1529*) SSet "bytes" #32 (ECast U8 ((("self".[#4]) .>> #40) .& #255));
    (*1530*) SSet "bytes" #33 (ECast U8 (((("self".[#4]) .>> #48) .& #63) .| ((("self".[#5]) .<< #6) .& #192)));
    (*1532*) SSet "bytes" #34 (ECast U8 ((("self".[#5]) .>> #2) .& #255));
    (*1533*) SSet "bytes" #35 (ECast U8 ((("self".[#5]) .>> #10) .& #255));
    (*1534*) SSet "bytes" #36 (ECast U8 ((("self".[#5]) .>> #18) .& #255));
    (*1535*) SSet "bytes" #37 (ECast U8 ((("self".[#5]) .>> #26) .& #255));
    (*1536*) SSet "bytes" #38 (ECast U8 ((("self".[#5]) .>> #34) .& #255));
    (*1537*) SSet "bytes" #39 (ECast U8 ((("self".[#5]) .>> #42) .& #255));
    (*1538*) SSet "bytes" #40 (ECast U8 (((("self".[#5]) .>> #50) .& #15) .| ((("self".[#6]) .<< #4) .& #240)));
    (*1540*) SSet "bytes" #41 (ECast U8 ((("self".[#6]) .>> #4) .& #255));
    (*1541*) SSet "bytes" #42 (ECast U8 ((("self".[#6]) .>> #12) .& #255));
    (*1542*) SSet "bytes" #43 (ECast U8 ((("self".[#6]) .>> #20) .& #255));
    (*1543*) SSet "bytes" #44 (ECast U8 ((("self".[#6]) .>> #28) .& #255));
    (*1544*) SSet "bytes" #45 (ECast U8 ((("self".[#6]) .>> #36) .& #255));
    (*1545*) SSet "bytes" #46 (ECast U8 ((("self".[#6]) .>> #44) .& #255));
    (*1546*) SSet "bytes" #47 (ECast U8 (((("self".[#6]) .>> #52) .& #3) .| ((("self".[#7]) .<< #2) .& #252)));
    (*1548*) SSet "bytes" #48 (ECast U8 ((("self".[#7]) .>> #6) .& #255));
    (*1549*) SSet "bytes" #49 (ECast U8 ((("self".[#7]) .>> #14) .& #255));
    (*1550*) SSet "bytes" #50 (ECast U8 ((("self".[#7]) .>> #22) .& #255));
    (*1551*) SSet "bytes" #51 (ECast U8 ((("self".[#7]) .>> #30) .& #255));
    (*1552*) SSet "bytes" #52 (ECast U8 ((("self".[#7]) .>> #38) .& #255));
    (*1553*) SSet "bytes" #53 (ECast U8 ((("self".[#7]) .>> #46) .& #255));
    (*1554*) SSet "bytes" #54 (ECast U8 (("self".[#8]) .& #255));
    (*1555*) SSet "bytes" #55 (ECast U8 ((("self".[#8]) .>> #8) .& #255));
    (*1556*) SSet "bytes" #56 (ECast U8 ((("self".[#8]) .>> #16) .& #255));
    (*1557*) SSet "bytes" #57 (ECast U8 ((("self".[#8]) .>> #24) .& #255));
    (*1558*) SSet "bytes" #58 (ECast U8 ((("self".[#8]) .>> #32) .& #255));
    (*1559*) SSet "bytes" #59 (ECast U8 ((("self".[#8]) .>> #40) .& #255));
    (*1560*) SSet "bytes" #60 (ECast U8 (((("self".[#8]) .>> #48) .& #63) .| ((("self".[#9]) .<< #6) .& #192)));
    (*1562*) SSet "bytes" #61 (ECast U8 ((("self".[#9]) .>> #2) .& #255));
    (*1563*) SSet "bytes" #62 (ECast U8 ((("self".[#9]) .>> #10) .& #255));
    (*1564*) SSet "bytes" #63 (ECast U8 ((("self".[#9]) .>> #18) .& #255));
    (*1565*) SSet "bytes" #64 (ECast U8 ((("self".[#9]) .>> #26) .& #255));
    (*1566*) SSet "bytes" #65 (ECast U8 ((("self".[#9]) .>> #34) .& #1)) ]
    [].

(* src/field/mod_e521_1.rs:1569-1571  Pack  F::nbytes *)
Definition f_nbytes : func := mkfunc [] [
 ]
    [#66].

(* src/field/mod_e521_1.rs:1575-1579  Normalize  F::normalize *)
Definition f_normalize : func := mkfunc ["self"] [
    (*1576*) SCall ["plusone"] "(&F)::add(i32)" [AVal "self"; AVal (ECast I32 (EInt C_VAL))];
    (*1577*) SCall ["offset"] "(&F)::mul(i32)" [AVal (ELit MODULUS); AVal (ECast I32 (carry_out "plusone"))];
    (*1578*) SCall [] "F::sub_assign(&F)" [AMut "self"; AVal "offset"] ]
    [].

(* src/field/mod_e521_1.rs:1583-1600  NormalizeEq  F::normalize_self_eq *)
Definition f_normalize_self_eq : func := mkfunc ["self"; "other"] [
    (*1584*) "are_equal" <- #1;
    (*1586*) SCall [] "F::normalize" [AMut "self"];
    (*1588*) "are_equal" <- "are_equal" .& (EEq ("self".[#0]) ("other".[#0]));
    (*1589*) "are_equal" <- "are_equal" .& (EEq ("self".[#1]) ("other".[#1]));
    (*1590*) "are_equal" <- "are_equal" .& (EEq ("self".[#2]) ("other".[#2]));
    (*1591*) "are_equal" <- "are_equal" .& (EEq ("self".[#3]) ("other".[#3]));
    (*1592*) "are_equal" <- "are_equal" .& (EEq ("self".[#4]) ("other".[#4]));
    (*1593*) "are_equal" <- "are_equal" .& (EEq ("self".[#5]) ("other".[#5]));
    (*1594*) "are_equal" <- "are_equal" .& (EEq ("self".[#6]) ("other".[#6]));
    (*1595*) "are_equal" <- "are_equal" .& (EEq ("self".[#7]) ("other".[#7]));
    (*1596*) "are_equal" <- "are_equal" .& (EEq ("self".[#8]) ("other".[#8]));
    (*1597*) "are_equal" <- "are_equal" .& (EEq ("self".[#9]) ("other".[#9])) ]
    [EVar "are_equal"].

(* src/field/mod_e521_1.rs:1602-1605  NormalizeEq  F::normalize_eq *)
Definition f_normalize_eq : func := mkfunc ["self"; "other"] [
    (*1603*) SCall [] "F::normalize" [AMut "other"];
    (*1604*) SCall ["%1"] "F::normalize_self_eq" [AMut "self"; AVal "other"] ]
    [EVar "%1"].

(* src/field/mod_e521_1.rs:1609-1629  PrimeFieldMask  Mask::fill *)
Definition f_Mask_fill : func := mkfunc ["self"; "bit"] [
    (*1610*) "mask" <- ECast I64 "bit";
    (*1612*) "mask" <- "mask" .| ("mask" .<< #1);
    (*1613*) "mask" <- "mask" .| ("mask" .<< #2);
    (*1614*) "mask" <- "mask" .| ("mask" .<< #4);
    (*1615*) "mask" <- "mask" .| ("mask" .<< #8);
    (*1616*) "mask" <- "mask" .| ("mask" .<< #16);
    (*1617*) "mask" <- "mask" .| ("mask" .<< #32);
    (*1619*) SSet "self" #0 ("mask");
    (*1620*) SSet "self" #1 ("mask");
    (*1621*) SSet "self" #2 ("mask");
    (*1622*) SSet "self" #3 ("mask");
    (*1623*) SSet "self" #4 ("mask");
    (*1624*) SSet "self" #5 ("mask");
    (*1625*) SSet "self" #6 ("mask");
    (*1626*) SSet "self" #7 ("mask");
    (*1627*) SSet "self" #8 ("mask");
    (*1628*) SSet "self" #9 ("mask") ]
    [].

(* src/field/mod_e521_1.rs:1631-1642  PrimeFieldMask  Mask::filled *)
Definition f_Mask_filled : func := mkfunc ["bit"] [
    (*1632*) "mask" <- ECast I64 "bit";
    (*1634*) "mask" <- "mask" .| ("mask" .<< #1);
    (*1635*) "mask" <- "mask" .| ("mask" .<< #2);
    (*1636*) "mask" <- "mask" .| ("mask" .<< #4);
    (*1637*) "mask" <- "mask" .| ("mask" .<< #8);
    (*1638*) "mask" <- "mask" .| ("mask" .<< #16);
    (*1639*) "mask" <- "mask" .| ("mask" .<< #32) ]
    [ERep "mask" 10].

(* src/field/mod_e521_1.rs:1646-1666  PrimeField  F::fill *)
Definition f_fill : func := mkfunc ["self"; "bit"] [
    (*1647*) "mask" <- ECast I64 "bit";
    (*1649*) "mask" <- "mask" .| ("mask" .<< #1);
    (*1650*) "mask" <- "mask" .| ("mask" .<< #2);
    (*1651*) "mask" <- "mask" .| ("mask" .<< #4);
    (*1652*) "mask" <- "mask" .| ("mask" .<< #8);
    (*1653*) "mask" <- "mask" .| ("mask" .<< #16);
    (*1654*) "mask" <- "mask" .| ("mask" .<< #32);
    (*1656*) SSet "self" #0 ("mask");
    (*1657*) SSet "self" #1 ("mask");
    (*1658*) SSet "self" #2 ("mask");
    (*1659*) SSet "self" #3 ("mask");
    (*1660*) SSet "self" #4 ("mask");
    (*1661*) SSet "self" #5 ("mask");
    (*1662*) SSet "self" #6 ("mask");
    (*1663*) SSet "self" #7 ("mask");
    (*1664*) SSet "self" #8 ("mask");
    (*1665*) SSet "self" #9 ("mask") ]
    [].

(* src/field/mod_e521_1.rs:1668-1679  PrimeField  F::filled *)
Definition f_filled : func := mkfunc ["bit"] [
    (*1669*) "mask" <- ECast I64 "bit";
    (*1671*) "mask" <- "mask" .| ("mask" .<< #1);
    (*1672*) "mask" <- "mask" .| ("mask" .<< #2);
    (*1673*) "mask" <- "mask" .| ("mask" .<< #4);
    (*1674*) "mask" <- "mask" .| ("mask" .<< #8);
    (*1675*) "mask" <- "mask" .| ("mask" .<< #16);
    (*1676*) "mask" <- "mask" .| ("mask" .<< #32) ]
    [ERep "mask" 10].

(* src/field/mod_e521_1.rs:1681-1681  PrimeField  F::nbits *)
Definition f_nbits : func := mkfunc [] [
 ]
    [#521].

(* src/field/mod_e521_1.rs:1683-1688  PrimeField  F::bit_normalized *)
Definition f_bit_normalized : func := mkfunc ["self"; "idx"] [
    (*1684*) "byte" <- EUDiv "idx" #54;
    (*1685*) "bit" <- EURem "idx" #54 ]
    [EEq ((("self".["byte"]) .>> "bit") .& #0x1) #0x1].

(* src/field/mod_e521_1.rs:1690-1693  PrimeField  F::bit *)
Definition f_bit : func := mkfunc ["self"; "idx"] [
    (*1691*) SCall [] "F::normalize" [AMut "self"];
    (*1692*) SCall ["%1"] "F::bit_normalized" [AVal "self"; AVal "idx"] ]
    [EVar "%1"].

(* src/field/mod_e521_1.rs:1695-1698  PrimeField  F::normalize_bitand *)
Definition f_normalize_bitand : func := mkfunc ["self"; "rhs"] [
    (*1696*) SCall [] "F::normalize" [AMut "rhs"];
    (*1697*) SCall [] "F::normalize_self_bitand" [AMut "self"; AVal "rhs"] ]
    [].

(* src/field/mod_e521_1.rs:1700-1703  PrimeField  F::normalize_self_bitand *)
Definition f_normalize_self_bitand : func := mkfunc ["self"; "rhs"] [
    (*1701*) SCall [] "F::normalize" [AMut "self"];
    (*1702*) SCall [] "F::normalized_bitand" [AMut "self"; AVal "rhs"] ]
    [].

(* src/field/mod_e521_1.rs:1705-1716  PrimeField  F::normalized_bitand *)
Definition f_normalized_bitand : func := mkfunc ["self"; "rhs"] [
    (*1706*) SSet "self" #0 (("self".[#0]) .& ("rhs".[#0]));
    (*1707*) SSet "self" #1 (("self".[#1]) .& ("rhs".[#1]));
    (*1708*) SSet "self" #2 (("self".[#2]) .& ("rhs".[#2]));
    (*1709*) SSet "self" #3 (("self".[#3]) .& ("rhs".[#3]));
    (*1710*) SSet "self" #4 (("self".[#4]) .& ("rhs".[#4]));
    (*1711*) SSet "self" #5 (("self".[#5]) .& ("rhs".[#5]));
    (*1712*) SSet "self" #6 (("self".[#6]) .& ("rhs".[#6]));
    (*1713*) SSet "self" #7 (("self".[#7]) .& ("rhs".[#7]));
    (*1714*) SSet "self" #8 (("self".[#8]) .& ("rhs".[#8]));
    (*1715*) SSet "self" #9 (("self".[#9]) .& ("rhs".[#9])) ]
    [].

(* src/field/mod_e521_1.rs:1718-1721  PrimeField  F::normalize_bitor *)
Definition f_normalize_bitor : func := mkfunc ["self"; "rhs"] [
    (*1719*) SCall [] "F::normalize" [AMut "rhs"];
    (*1720*) SCall [] "F::normalize_self_bitor" [AMut "self"; AVal "rhs"] ]
    [].

(* src/field/mod_e521_1.rs:1723-1726  PrimeField  F::normalize_self_bitor *)
Definition f_normalize_self_bitor : func := mkfunc ["self"; "rhs"] [
    (*1724*) SCall [] "F::normalize" [AMut "self"];
    (*1725*) SCall [] "F::normalized_bitor" [AMut "self"; AVal "rhs"] ]
    [].

(* src/field/mod_e521_1.rs:1728-1739  PrimeField  F::normalized_bitor *)
Definition f_normalized_bitor : func := mkfunc ["self"; "rhs"] [
    (*1729*) SSet "self" #0 (("self".[#0]) .| ("rhs".[#0]));
    (*1730*) SSet "self" #1 (("self".[#1]) .| ("rhs".[#1]));
    (*1731*) SSet "self" #2 (("self".[#2]) .| ("rhs".[#2]));
    (*1732*) SSet "self" #3 (("self".[#3]) .| ("rhs".[#3]));
    (*1733*) SSet "self" #4 (("self".[#4]) .| ("rhs".[#4]));
    (*1734*) SSet "self" #5 (("self".[#5]) .| ("rhs".[#5]));
    (*1735*) SSet "self" #6 (("self".[#6]) .| ("rhs".[#6]));
    (*1736*) SSet "self" #7 (("self".[#7]) .| ("rhs".[#7]));
    (*1737*) SSet "self" #8 (("self".[#8]) .| ("rhs".[#8]));
    (*1738*) SSet "self" #9 (("self".[#9]) .| ("rhs".[#9])) ]
    [].

(* src/field/mod_e521_1.rs:1741-1743  PrimeField  F::zero *)
Definition f_zero : func := mkfunc [] [
 ]
    [ELit ZERO].

(* src/field/mod_e521_1.rs:1745-1747  PrimeField  F::one *)
Definition f_one : func := mkfunc [] [
 ]
    [ELit ONE].

(* src/field/mod_e521_1.rs:1749-1751  PrimeField  F::m_one *)
Definition f_m_one : func := mkfunc [] [
 ]
    [ELit M_ONE].

(* src/field/mod_e521_1.rs:1753-1755  PrimeField  F::modulus *)
Definition f_modulus : func := mkfunc [] [
 ]
    [ELit MODULUS].

(* src/field/mod_e521_1.rs:1757-2497  PrimeField  F::square *)
Definition f_square : func := mkfunc ["self"] [
    (*1758*) "a0" <- ("self".[#0]) .& #0x07ffffff;
    (*1759*) "a1" <- ("self".[#0]) .>> #27;
    (*1760*) "a2" <- ("self".[#1]) .& #0x07ffffff;
    (*1761*) "a3" <- ("self".[#1]) .>> #27;
    (*1762*) "a4" <- ("self".[#2]) .& #0x07ffffff;
    (*1763*) "a5" <- ("self".[#2]) .>> #27;
    (*1764*) "a6" <- ("self".[#3]) .& #0x07ffffff;
    (*1765*) "a7" <- ("self".[#3]) .>> #27;
    (*1766*) "a8" <- ("self".[#4]) .& #0x07ffffff;
    (*1767*) "a9" <- ("self".[#4]) .>> #27;
    (*1768*) "a10" <- ("self".[#5]) .& #0x07ffffff;
    (*1769*) "a11" <- ("self".[#5]) .>> #27;
    (*1770*) "a12" <- ("self".[#6]) .& #0x07ffffff;
    (*1771*) "a13" <- ("self".[#6]) .>> #27;
    (*1772*) "a14" <- ("self".[#7]) .& #0x07ffffff;
    (*1773*) "a15" <- ("self".[#7]) .>> #27;
    (*1774*) "a16" <- ("self".[#8]) .& #0x07ffffff;
    (*1775*) "a17" <- ("self".[#8]) .>> #27;
    (*1776*) "a18" <- ("self".[#9]) .& #0x07ffffff;
    (*1777*) "a19" <- ("self".[#9]) .>> #27;
    (*1780*) "m_0_0" <- "a0" .* "a0";
    (*1781*) "m_0_1" <- "a0" .* "a1";
    (*1782*) "m_0_2" <- "a0" .* "a2";
    (*1783*) "m_0_3" <- "a0" .* "a3";
    (*1784*) "m_0_4" <- "a0" .* "a4";
    (*1785*) "m_0_5" <- "a0" .* "a5";
    (*1786*) "m_0_6" <- "a0" .* "a6";
    (*1787*) "m_0_7" <- "a0" .* "a7";
    (*1788*) "m_0_8" <- "a0" .* "a8";
    (*1789*) "m_0_9" <- "a0" .* "a9";
    (*1790*) "m_0_10" <- "a0" .* "a10";
    (*1791*) "m_0_11" <- "a0" .* "a11";
    (*1792*) "m_0_12" <- "a0" .* "a12";
    (*1793*) "m_0_13" <- "a0" .* "a13";
    (*1794*) "m_0_14" <- "a0" .* "a14";
    (*1795*) "m_0_15" <- "a0" .* "a15";
    (*1796*) "m_0_16" <- "a0" .* "a16";
    (*1797*) "m_0_17" <- "a0" .* "a17";
    (*1798*) "m_0_18" <- "a0" .* "a18";
    (*1799*) "m_0_19" <- "a0" .* "a19";
    (*1800*) "m_1_0" <- "m_0_1";
    (*1801*) "m_1_1" <- "a1" .* "a1";
    (*1802*) "m_1_2" <- "a1" .* "a2";
    (*1803*) "m_1_3" <- "a1" .* "a3";
    (*1804*) "m_1_4" <- "a1" .* "a4";
    (*1805*) "m_1_5" <- "a1" .* "a5";
    (*1806*) "m_1_6" <- "a1" .* "a6";
    (*1807*) "m_1_7" <- "a1" .* "a7";
    (*1808*) "m_1_8" <- "a1" .* "a8";
    (*1809*) "m_1_9" <- "a1" .* "a9";
    (*1810*) "m_1_10" <- "a1" .* "a10";
    (*1811*) "m_1_11" <- "a1" .* "a11";
    (*1812*) "m_1_12" <- "a1" .* "a12";
    (*1813*) "m_1_13" <- "a1" .* "a13";
    (*1814*) "m_1_14" <- "a1" .* "a14";
    (*1815*) "m_1_15" <- "a1" .* "a15";
    (*1816*) "m_1_16" <- "a1" .* "a16";
    (*1817*) "m_1_17" <- "a1" .* "a17";
    (*1818*) "m_1_18" <- "a1" .* "a18";
    (*1819*) "m_1_19" <- "a1" .* "a19";
    (*1820*) "m_2_0" <- "m_0_2";
    (*1821*) "m_2_1" <- "m_1_2";
    (*1822*) "m_2_2" <- "a2" .* "a2";
    (*1823*) "m_2_3" <- "a2" .* "a3";
    (*1824*) "m_2_4" <- "a2" .* "a4";
    (*1825*) "m_2_5" <- "a2" .* "a5";
    (*1826*) "m_2_6" <- "a2" .* "a6";
    (*1827*) "m_2_7" <- "a2" .* "a7";
    (*1828*) "m_2_8" <- "a2" .* "a8";
    (*1829*) "m_2_9" <- "a2" .* "a9";
    (*1830*) "m_2_10" <- "a2" .* "a10";
    (*1831*) "m_2_11" <- "a2" .* "a11";
    (*1832*) "m_2_12" <- "a2" .* "a12";
    (*1833*) "m_2_13" <- "a2" .* "a13";
    (*1834*) "m_2_14" <- "a2" .* "a14";
    (*1835*) "m_2_15" <- "a2" .* "a15";
    (*1836*) "m_2_16" <- "a2" .* "a16";
    (*1837*) "m_2_17" <- "a2" .* "a17";
    (*1838*) "m_2_18" <- "a2" .* "a18";
    (*1839*) "m_2_19" <- "a2" .* "a19";
    (*1840*) "m_3_0" <- "m_0_3";
    (*1841*) "m_3_1" <- "m_1_3";
    (*1842*) "m_3_2" <- "m_2_3";
    (*1843*) "m_3_3" <- "a3" .* "a3";
    (*1844*) "m_3_4" <- "a3" .* "a4";
    (*1845*) "m_3_5" <- "a3" .* "a5";
    (*1846*) "m_3_6" <- "a3" .* "a6";
    (*1847*) "m_3_7" <- "a3" .* "a7";
    (*1848*) "m_3_8" <- "a3" .* "a8";
    (*1849*) "m_3_9" <- "a3" .* "a9";
    (*1850*) "m_3_10" <- "a3" .* "a10";
    (*1851*) "m_3_11" <- "a3" .* "a11";
    (*1852*) "m_3_12" <- "a3" .* "a12";
    (*1853*) "m_3_13" <- "a3" .* "a13";
    (*1854*) "m_3_14" <- "a3" .* "a14";
    (*1855*) "m_3_15" <- "a3" .* "a15";
    (*1856*) "m_3_16" <- "a3" .* "a16";
    (*1857*) "m_3_17" <- "a3" .* "a17";
    (*1858*) "m_3_18" <- "a3" .* "a18";
    (*1859*) "m_3_19" <- "a3" .* "a19";
    (*1860*) "m_4_0" <- "m_0_4";
    (*1861*) "m_4_1" <- "m_1_4";
    (*1862*) "m_4_2" <- "m_2_4";
    (*1863*) "m_4_3" <- "m_3_4";
    (*1864*) "m_4_4" <- "a4" .* "a4";
    (*1865*) "m_4_5" <- "a4" .* "a5";
    (*1866*) "m_4_6" <- "a4" .* "a6";
    (*1867*) "m_4_7" <- "a4" .* "a7";
    (*1868*) "m_4_8" <- "a4" .* "a8";
    (*1869*) "m_4_9" <- "a4" .* "a9";
    (*1870*) "m_4_10" <- "a4" .* "a10";
    (*1871*) "m_4_11" <- "a4" .* "a11";
    (*1872*) "m_4_12" <- "a4" .* "a12";
    (*1873*) "m_4_13" <- "a4" .* "a13";
    (*1874*) "m_4_14" <- "a4" .* "a14";
    (*1875*) "m_4_15" <- "a4" .* "a15";
    (*1876*) "m_4_16" <- "a4" .* "a16";
    (*1877*) "m_4_17" <- "a4" .* "a17";
    (*1878*) "m_4_18" <- "a4" .* "a18";
    (*1879*) "m_4_19" <- "a4" .* "a19";
    (*1880*) "m_5_0" <- "m_0_5";
    (*1881*) "m_5_1" <- "m_1_5";
    (*1882*) "m_5_2" <- "m_2_5";
    (*1883*) "m_5_3" <- "m_3_5";
    (*1884*) "m_5_4" <- "m_4_5";
    (*1885*) "m_5_5" <- "a5" .* "a5";
    (*1886*) "m_5_6" <- "a5" .* "a6";
    (*1887*) "m_5_7" <- "a5" .* "a7";
    (*1888*) "m_5_8" <- "a5" .* "a8";
    (*1889*) "m_5_9" <- "a5" .* "a9";
    (*1890*) "m_5_10" <- "a5" .* "a10";
    (*1891*) "m_5_11" <- "a5" .* "a11";
    (*1892*) "m_5_12" <- "a5" .* "a12";
    (*1893*) "m_5_13" <- "a5" .* "a13";
    (*1894*) "m_5_14" <- "a5" .* "a14";
    (*1895*) "m_5_15" <- "a5" .* "a15";
    (*1896*) "m_5_16" <- "a5" .* "a16";
    (*1897*) "m_5_17" <- "a5" .* "a17";
    (*1898*) "m_5_18" <- "a5" .* "a18";
    (*1899*) "m_5_19" <- "a5" .* "a19";
    (*1900*) "m_6_0" <- "m_0_6";
    (*1901*) "m_6_1" <- "m_1_6";
    (*1902*) "m_6_2" <- "m_2_6";
    (*1903*) "m_6_3" <- "m_3_6";
    (*1904*) "m_6_4" <- "m_4_6";
    (*1905*) "m_6_5" <- "m_5_6";
    (*1906*) "m_6_6" <- "a6" .* "a6";
    (*1907*) "m_6_7" <- "a6" .* "a7";
    (*1908*) "m_6_8" <- "a6" .* "a8";
    (*1909*) "m_6_9" <- "a6" .* "a9";
    (*1910*) "m_6_10" <- "a6" .* "a10";
    (*1911*) "m_6_11" <- "a6" .* "a11";
    (*1912*) "m_6_12" <- "a6" .* "a12";
    (*1913*) "m_6_13" <- "a6" .* "a13";
    (*1914*) "m_6_14" <- "a6" .* "a14";
    (*1915*) "m_6_15" <- "a6" .* "a15";
    (*1916*) "m_6_16" <- "a6" .* "a16";
    (*1917*) "m_6_17" <- "a6" .* "a17";
    (*1918*) "m_6_18" <- "a6" .* "a18";
    (*1919*) "m_6_19" <- "a6" .* "a19";
    (*1920*) "m_7_0" <- "m_0_7";
    (*1921*) "m_7_1" <- "m_1_7";
    (*1922*) "m_7_2" <- "m_2_7";
    (*1923*) "m_7_3" <- "m_3_7";
    (*1924*) "m_7_4" <- "m_4_7";
    (*1925*) "m_7_5" <- "m_5_7";
    (*1926*) "m_7_6" <- "m_6_7";
    (*1927*) "m_7_7" <- "a7" .* "a7";
    (*1928*) "m_7_8" <- "a7" .* "a8";
    (*1929*) "m_7_9" <- "a7" .* "a9";
    (*1930*) "m_7_10" <- "a7" .* "a10";
    (*1931*) "m_7_11" <- "a7" .* "a11";
    (*1932*) "m_7_12" <- "a7" .* "a12";
    (*1933*) "m_7_13" <- "a7" .* "a13";
    (*1934*) "m_7_14" <- "a7" .* "a14";
    (*1935*) "m_7_15" <- "a7" .* "a15";
    (*1936*) "m_7_16" <- "a7" .* "a16";
    (*1937*) "m_7_17" <- "a7" .* "a17";
    (*1938*) "m_7_18" <- "a7" .* "a18";
    (*1939*) "m_7_19" <- "a7" .* "a19";
    (*1940*) "m_8_0" <- "m_0_8";
    (*1941*) "m_8_1" <- "m_1_8";
    (*1942*) "m_8_2" <- "m_2_8";
    (*1943*) "m_8_3" <- "m_3_8";
    (*1944*) "m_8_4" <- "m_4_8";
    (*1945*) "m_8_5" <- "m_5_8";
    (*1946*) "m_8_6" <- "m_6_8";
    (*1947*) "m_8_7" <- "m_7_8";
    (*1948*) "m_8_8" <- "a8" .* "a8";
    (*1949*) "m_8_9" <- "a8" .* "a9";
    (*1950*) "m_8_10" <- "a8" .* "a10";
    (*1951*) "m_8_11" <- "a8" .* "a11";
    (*1952*) "m_8_12" <- "a8" .* "a12";
    (*1953*) "m_8_13" <- "a8" .* "a13";
    (*1954*) "m_8_14" <- "a8" .* "a14";
    (*1955*) "m_8_15" <- "a8" .* "a15";
    (*1956*) "m_8_16" <- "a8" .* "a16";
    (*1957*) "m_8_17" <- "a8" .* "a17";
    (*1958*) "m_8_18" <- "a8" .* "a18";
    (*1959*) "m_8_19" <- "a8" .* "a19";
    (*1960*) "m_9_0" <- "m_0_9";
    (*1961*) "m_9_1" <- "m_1_9";
    (*1962*) "m_9_2" <- "m_2_9";
    (*1963*) "m_9_3" <- "m_3_9";
    (*1964*) "m_9_4" <- "m_4_9";
    (*1965*) "m_9_5" <- "m_5_9";
    (*1966*) "m_9_6" <- "m_6_9";
    (*1967*) "m_9_7" <- "m_7_9";
    (*1968*) "m_9_8" <- "m_8_9";
    (*1969*) "m_9_9" <- "a9" .* "a9";
    (*1970*) "m_9_10" <- "a9" .* "a10";
    (*1971*) "m_9_11" <- "a9" .* "a11";
    (*1972*) "m_9_12" <- "a9" .* "a12";
    (*1973*) "m_9_13" <- "a9" .* "a13";
    (*1974*) "m_9_14" <- "a9" .* "a14";
    (*1975*) "m_9_15" <- "a9" .* "a15";
    (*1976*) "m_9_16" <- "a9" .* "a16";
    (*1977*) "m_9_17" <- "a9" .* "a17";
    (*1978*) "m_9_18" <- "a9" .* "a18";
    (*1979*) "m_9_19" <- "a9" .* "a19";
    (*1980*) "m_10_0" <- "m_0_10";
    (*1981*) "m_10_1" <- "m_1_10";
    (*1982*) "m_10_2" <- "m_2_10";
    (*1983*) "m_10_3" <- "m_3_10";
    (*1984*) "m_10_4" <- "m_4_10";
    (*1985*) "m_10_5" <- "m_5_10";
    (*1986*) "m_10_6" <- "m_6_10";
    (*1987*) "m_10_7" <- "m_7_10";
    (*1988*) "m_10_8" <- "m_8_10";
    (*1989*) "m_10_9" <- "m_9_10";
    (*1990*) "m_10_10" <- "a10" .* "a10";
    (*1991*) "m_10_11" <- "a10" .* "a11";
    (*1992*) "m_10_12" <- "a10" .* "a12";
    (*1993*) "m_10_13" <- "a10" .* "a13";
    (*1994*) "m_10_14" <- "a10" .* "a14";
    (*1995*) "m_10_15" <- "a10" .* "a15";
    (*1996*) "m_10_16" <- "a10" .* "a16";
    (*1997*) "m_10_17" <- "a10" .* "a17";
    (*1998*) "m_10_18" <- "a10" .* "a18";
    (*1999*) "m_10_19" <- "a10" .* "a19";
    (*2000*) "m_11_0" <- "m_0_11";
    (*2001*) "m_11_1" <- "m_1_11";
    (*2002*) "m_11_2" <- "m_2_11";
    (*2003*) "m_11_3" <- "m_3_11";
    (*2004*) "m_11_4" <- "m_4_11";
    (*2005*) "m_11_5" <- "m_5_11";
    (*2006*) "m_11_6" <- "m_6_11";
    (*2007*) "m_11_7" <- "m_7_11";
    (*2008*) "m_11_8" <- "m_8_11";
    (*2009*) "m_11_9" <- "m_9_11";
    (*2010*) "m_11_10" <- "m_10_11";
    (*2011*) "m_11_11" <- "a11" .* "a11";
    (*2012*) "m_11_12" <- "a11" .* "a12";
    (*2013*) "m_11_13" <- "a11" .* "a13";
    (*2014*) "m_11_14" <- "a11" .* "a14";
    (*2015*) "m_11_15" <- "a11" .* "a15";
    (*2016*) "m_11_16" <- "a11" .* "a16";
    (*2017*) "m_11_17" <- "a11" .* "a17";
    (*2018*) "m_11_18" <- "a11" .* "a18";
    (*2019*) "m_11_19" <- "a11" .* "a19";
    (*2020*) "m_12_0" <- "m_0_12";
    (*2021*) "m_12_1" <- "m_1_12";
    (*2022*) "m_12_2" <- "m_2_12";
    (*2023*) "m_12_3" <- "m_3_12";
    (*2024*) "m_12_4" <- "m_4_12";
    (*2025*) "m_12_5" <- "m_5_12";
    (*2026*) "m_12_6" <- "m_6_12";
    (*2027*) "m_12_7" <- "m_7_12";
    (*2028*) "m_12_8" <- "m_8_12";
    (*2029*) "m_12_9" <- "m_9_12";
    (*2030*) "m_12_10" <- "m_10_12";
    (*2031*) "m_12_11" <- "m_11_12";
    (*2032*) "m_12_12" <- "a12" .* "a12";
    (*2033*) "m_12_13" <- "a12" .* "a13";
    (*2034*) "m_12_14" <- "a12" .* "a14";
    (*2035*) "m_12_15" <- "a12" .* "a15";
    (*2036*) "m_12_16" <- "a12" .* "a16";
    (*2037*) "m_12_17" <- "a12" .* "a17";
    (*2038*) "m_12_18" <- "a12" .* "a18";
    (*2039*) "m_12_19" <- "a12" .* "a19";
    (*2040*) "m_13_0" <- "m_0_13";
    (*2041*) "m_13_1" <- "m_1_13";
    (*2042*) "m_13_2" <- "m_2_13";
    (*2043*) "m_13_3" <- "m_3_13";
    (*2044*) "m_13_4" <- "m_4_13";
    (*2045*) "m_13_5" <- "m_5_13";
    (*2046*) "m_13_6" <- "m_6_13";
    (*2047*) "m_13_7" <- "m_7_13";
    (*2048*) "m_13_8" <- "m_8_13";
    (*2049*) "m_13_9" <- "m_9_13";
    (*2050*) "m_13_10" <- "m_10_13";
    (*2051*) "m_13_11" <- "m_11_13";
    (*2052*) "m_13_12" <- "m_12_13";
    (*2053*) "m_13_13" <- "a13" .* "a13";
    (*2054*) "m_13_14" <- "a13" .* "a14";
    (*2055*) "m_13_15" <- "a13" .* "a15";
    (*2056*) "m_13_16" <- "a13" .* "a16";
    (*2057*) "m_13_17" <- "a13" .* "a17";
    (*2058*) "m_13_18" <- "a13" .* "a18";
    (*2059*) "m_13_19" <- "a13" .* "a19";
    (*2060*) "m_14_0" <- "m_0_14";
    (*2061*) "m_14_1" <- "m_1_14";
    (*2062*) "m_14_2" <- "m_2_14";
    (*2063*) "m_14_3" <- "m_3_14";
    (*2064*) "m_14_4" <- "m_4_14";
    (*2065*) "m_14_5" <- "m_5_14";
    (*2066*) "m_14_6" <- "m_6_14";
    (*2067*) "m_14_7" <- "m_7_14";
    (*2068*) "m_14_8" <- "m_8_14";
    (*2069*) "m_14_9" <- "m_9_14";
    (*2070*) "m_14_10" <- "m_10_14";
    (*2071*) "m_14_11" <- "m_11_14";
    (*2072*) "m_14_12" <- "m_12_14";
    (*2073*) "m_14_13" <- "m_13_14";
    (*2074*) "m_14_14" <- "a14" .* "a14";
    (*2075*) "m_14_15" <- "a14" .* "a15";
    (*2076*) "m_14_16" <- "a14" .* "a16";
    (*2077*) "m_14_17" <- "a14" .* "a17";
    (*2078*) "m_14_18" <- "a14" .* "a18";
    (*2079*) "m_14_19" <- "a14" .* "a19";
    (*2080*) "m_15_0" <- "m_0_15";
    (*2081*) "m_15_1" <- "m_1_15";
    (*2082*) "m_15_2" <- "m_2_15";
    (*2083*) "m_15_3" <- "m_3_15";
    (*2084*) "m_15_4" <- "m_4_15";
    (*2085*) "m_15_5" <- "m_5_15";
    (*2086*) "m_15_6" <- "m_6_15";
    (*2087*) "m_15_7" <- "m_7_15";
    (*2088*) "m_15_8" <- "m_8_15";
    (*2089*) "m_15_9" <- "m_9_15";
    (*2090*) "m_15_10" <- "m_10_15";
    (*2091*) "m_15_11" <- "m_11_15";
    (*2092*) "m_15_12" <- "m_12_15";
    (*2093*) "m_15_13" <- "m_13_15";
    (*2094*) "m_15_14" <- "m_14_15";
    (*2095*) "m_15_15" <- "a15" .* "a15";
    (*2096*) "m_15_16" <- "a15" .* "a16";
    (*2097*) "m_15_17" <- "a15" .* "a17";
    (*2098*) "m_15_18" <- "a15" .* "a18";
    (*2099*) "m_15_19" <- "a15" .* "a19";
    (*2100*) "m_16_0" <- "m_0_16";
    (*2101*) "m_16_1" <- "m_1_16";
    (*2102*) "m_16_2" <- "m_2_16";
    (*2103*) "m_16_3" <- "m_3_16";
    (*2104*) "m_16_4" <- "m_4_16";
    (*2105*) "m_16_5" <- "m_5_16";
    (*2106*) "m_16_6" <- "m_6_16";
    (*2107*) "m_16_7" <- "m_7_16";
    (*2108*) "m_16_8" <- "m_8_16";
    (*2109*) "m_16_9" <- "m_9_16";
    (*2110*) "m_16_10" <- "m_10_16";
    (*2111*) "m_16_11" <- "m_11_16";
    (*2112*) "m_16_12" <- "m_12_16";
    (*2113*) "m_16_13" <- "m_13_16";
    (*2114*) "m_16_14" <- "m_14_16";
    (*2115*) "m_16_15" <- "m_15_16";
    (*2116*) "m_16_16" <- "a16" .* "a16";
    (*2117*) "m_16_17" <- "a16" .* "a17";
    (*2118*) "m_16_18" <- "a16" .* "a18";
    (*2119*) "m_16_19" <- "a16" .* "a19";
    (*2120*) "m_17_0" <- "m_0_17";
    (*2121*) "m_17_1" <- "m_1_17";
    (*2122*) "m_17_2" <- "m_2_17";
    (*2123*) "m_17_3" <- "m_3_17";
    (*2124*) "m_17_4" <- "m_4_17";
    (*2125*) "m_17_5" <- "m_5_17";
    (*2126*) "m_17_6" <- "m_6_17";
    (*2127*) "m_17_7" <- "m_7_17";
    (*2128*) "m_17_8" <- "m_8_17";
    (*2129*) "m_17_9" <- "m_9_17";
    (*2130*) "m_17_10" <- "m_10_17";
    (*2131*) "m_17_11" <- "m_11_17";
    (*2132*) "m_17_12" <- "m_12_17";
    (*2133*) "m_17_13" <- "m_13_17";
    (*2134*) "m_17_14" <- "m_14_17";
    (*2135*) "m_17_15" <- "m_15_17";
    (*2136*) "m_17_16" <- "m_16_17";
    (*2137*) "m_17_17" <- "a17" .* "a17";
    (*2138*) "m_17_18" <- "a17" .* "a18";
    (*2139*) "m_17_19" <- "a17" .* "a19";
    (*2140*) "m_18_0" <- "m_0_18";
    (*2141*) "m_18_1" <- "m_1_18";
    (*2142*) "m_18_2" <- "m_2_18";
    (*2143*) "m_18_3" <- "m_3_18";
    (*2144*) "m_18_4" <- "m_4_18";
    (*2145*) "m_18_5" <- "m_5_18";
    (*2146*) "m_18_6" <- "m_6_18";
    (*2147*) "m_18_7" <- "m_7_18";
    (*2148*) "m_18_8" <- "m_8_18";
    (*2149*) "m_18_9" <- "m_9_18";
    (*2150*) "m_18_10" <- "m_10_18";
    (*2151*) "m_18_11" <- "m_11_18";
    (*2152*) "m_18_12" <- "m_12_18";
    (*2153*) "m_18_13" <- "m_13_18";
    (*2154*) "m_18_14" <- "m_14_18";
    (*2155*) "m_18_15" <- "m_15_18";
    (*2156*) "m_18_16" <- "m_16_18";
    (*2157*) "m_18_17" <- "m_17_18";
    (*2158*) "m_18_18" <- "a18" .* "a18";
    (*2159*) "m_18_19" <- "a18" .* "a19";
    (*2160*) "m_19_0" <- "m_0_19";
    (*2161*) "m_19_1" <- "m_1_19";
    (*2162*) "m_19_2" <- "m_2_19";
    (*2163*) "m_19_3" <- "m_3_19";
    (*2164*) "m_19_4" <- "m_4_19";
    (*2165*) "m_19_5" <- "m_5_19";
    (*2166*) "m_19_6" <- "m_6_19";
    (*2167*) "m_19_7" <- "m_7_19";
    (*2168*) "m_19_8" <- "m_8_19";
    (*2169*) "m_19_9" <- "m_9_19";
    (*2170*) "m_19_10" <- "m_10_19";
    (*2171*) "m_19_11" <- "m_11_19";
    (*2172*) "m_19_12" <- "m_12_19";
    (*2173*) "m_19_13" <- "m_13_19";
    (*2174*) "m_19_14" <- "m_14_19";
    (*2175*) "m_19_15" <- "m_15_19";
    (*2176*) "m_19_16" <- "m_16_19";
    (*2177*) "m_19_17" <- "m_17_19";
    (*2178*) "m_19_18" <- "m_18_19";
    (*2179*) "m_19_19" <- "a19" .* "a19";
    (*2182*) "d0" <- ("m_0_0" .+ (("m_0_1" .& #0x07ffffff) .<< #27)) .+ (("m_1_0" .& #0x07ffffff) .<< #27);
    (*2184*) "c0" <- "d0" .>> #54;
    (*2185*) "d1" <- ((((((((("m_0_1" .>> #27) .+ "m_0_2") .+ (("m_0_3" .& #0x07ffffff) .<< #27)) .+ ("m_1_0" .>> #27)) .+ "m_1_1") .+ (("m_1_2" .& #0x07ffffff) .<< #27)) .+ "m_2_0") .+ (("m_2_1" .& #0x07ffffff) .<< #27)) .+ (("m_3_0" .& #0x07ffffff) .<< #27)) .+ "c0";
    (*2189*) "c1" <- "d1" .>> #54;
    (*2190*) "d2" <- ((((((((((((((("m_0_3" .>> #27) .+ "m_0_4") .+ (("m_0_5" .& #0x07ffffff) .<< #27)) .+ ("m_1_2" .>> #27)) .+ "m_1_3") .+ (("m_1_4" .& #0x07ffffff) .<< #27)) .+ ("m_2_1" .>> #27)) .+ "m_2_2") .+ (("m_2_3" .& #0x07ffffff) .<< #27)) .+ ("m_3_0" .>> #27)) .+ "m_3_1") .+ (("m_3_2" .& #0x07ffffff) .<< #27)) .+ "m_4_0") .+ (("m_4_1" .& #0x07ffffff) .<< #27)) .+ (("m_5_0" .& #0x07ffffff) .<< #27)) .+ "c1";
    (*2196*) "c2" <- "d2" .>> #54;
    (*2197*) "d3" <- ((((((((((((((((((((("m_0_5" .>> #27) .+ "m_0_6") .+ (("m_0_7" .& #0x07ffffff) .<< #27)) .+ ("m_1_4" .>> #27)) .+ "m_1_5") .+ (("m_1_6" .& #0x07ffffff) .<< #27)) .+ ("m_2_3" .>> #27)) .+ "m_2_4") .+ (("m_2_5" .& #0x07ffffff) .<< #27)) .+ ("m_3_2" .>> #27)) .+ "m_3_3") .+ (("m_3_4" .& #0x07ffffff) .<< #27)) .+ ("m_4_1" .>> #27)) .+ "m_4_2") .+ (("m_4_3" .& #0x07ffffff) .<< #27)) .+ ("m_5_0" .>> #27)) .+ "m_5_1") .+ (("m_5_2" .& #0x07ffffff) .<< #27)) .+ "m_6_0") .+ (("m_6_1" .& #0x07ffffff) .<< #27)) .+ (("m_7_0" .& #0x07ffffff) .<< #27)) .+ "c2";
    (*2205*) "c3" <- "d3" .>> #54;
    (*2206*) "d4" <- ((((((((((((((((((((((((((("m_0_7" .>> #27) .+ "m_0_8") .+ (("m_0_9" .& #0x07ffffff) .<< #27)) .+ ("m_1_6" .>> #27)) .+ "m_1_7") .+ (("m_1_8" .& #0x07ffffff) .<< #27)) .+ ("m_2_5" .>> #27)) .+ "m_2_6") .+ (("m_2_7" .& #0x07ffffff) .<< #27)) .+ ("m_3_4" .>> #27)) .+ "m_3_5") .+ (("m_3_6" .& #0x07ffffff) .<< #27)) .+ ("m_4_3" .>> #27)) .+ "m_4_4") .+ (("m_4_5" .& #0x07ffffff) .<< #27)) .+ ("m_5_2" .>> #27)) .+ "m_5_3") .+ (("m_5_4" .& #0x07ffffff) .<< #27)) .+ ("m_6_1" .>> #27)) .+ "m_6_2") .+ (("m_6_3" .& #0x07ffffff) .<< #27)) .+ ("m_7_0" .>> #27)) .+ "m_7_1") .+ (("m_7_2" .& #0x07ffffff) .<< #27)) .+ "m_8_0") .+ (("m_8_1" .& #0x07ffffff) .<< #27)) .+ (("m_9_0" .& #0x07ffffff) .<< #27)) .+ "c3";
    (*2216*) "c4" <- "d4" .>> #54;
    (*2217*) "d5" <- ((((((((((((((((((((((((((((((((("m_0_9" .>> #27) .+ "m_0_10") .+ (("m_0_11" .& #0x07ffffff) .<< #27)) .+ ("m_1_8" .>> #27)) .+ "m_1_9") .+ (("m_1_10" .& #0x07ffffff) .<< #27)) .+ ("m_2_7" .>> #27)) .+ "m_2_8") .+ (("m_2_9" .& #0x07ffffff) .<< #27)) .+ ("m_3_6" .>> #27)) .+ "m_3_7") .+ (("m_3_8" .& #0x07ffffff) .<< #27)) .+ ("m_4_5" .>> #27)) .+ "m_4_6") .+ (("m_4_7" .& #0x07ffffff) .<< #27)) .+ ("m_5_4" .>> #27)) .+ "m_5_5") .+ (("m_5_6" .& #0x07ffffff) .<< #27)) .+ ("m_6_3" .>> #27)) .+ "m_6_4") .+ (("m_6_5" .& #0x07ffffff) .<< #27)) .+ ("m_7_2" .>> #27)) .+ "m_7_3") .+ (("m_7_4" .& #0x07ffffff) .<< #27)) .+ ("m_8_1" .>> #27)) .+ "m_8_2") .+ (("m_8_3" .& #0x07ffffff) .<< #27)) .+ ("m_9_0" .>> #27)) .+ "m_9_1") .+ (("m_9_2" .& #0x07ffffff) .<< #27)) .+ "m_10_0") .+ (("m_10_1" .& #0x07ffffff) .<< #27)) .+ (("m_11_0" .& #0x07ffffff) .<< #27)) .+ "c4";
    (*2229*) "c5" <- "d5" .>> #54;
    (*2230*) "d6" <- ((((((((((((((((((((((((((((((((((((((("m_0_11" .>> #27) .+ "m_0_12") .+ (("m_0_13" .& #0x07ffffff) .<< #27)) .+ ("m_1_10" .>> #27)) .+ "m_1_11") .+ (("m_1_12" .& #0x07ffffff) .<< #27)) .+ ("m_2_9" .>> #27)) .+ "m_2_10") .+ (("m_2_11" .& #0x07ffffff) .<< #27)) .+ ("m_3_8" .>> #27)) .+ "m_3_9") .+ (("m_3_10" .& #0x07ffffff) .<< #27)) .+ ("m_4_7" .>> #27)) .+ "m_4_8") .+ (("m_4_9" .& #0x07ffffff) .<< #27)) .+ ("m_5_6" .>> #27)) .+ "m_5_7") .+ (("m_5_8" .& #0x07ffffff) .<< #27)) .+ ("m_6_5" .>> #27)) .+ "m_6_6") .+ (("m_6_7" .& #0x07ffffff) .<< #27)) .+ ("m_7_4" .>> #27)) .+ "m_7_5") .+ (("m_7_6" .& #0x07ffffff) .<< #27)) .+ ("m_8_3" .>> #27)) .+ "m_8_4") .+ (("m_8_5" .& #0x07ffffff) .<< #27)) .+ ("m_9_2" .>> #27)) .+ "m_9_3") .+ (("m_9_4" .& #0x07ffffff) .<< #27)) .+ ("m_10_1" .>> #27)) .+ "m_10_2") .+ (("m_10_3" .& #0x07ffffff) .<< #27)) .+ ("m_11_0" .>> #27)) .+ "m_11_1") .+ (("m_11_2" .& #0x07ffffff) .<< #27)) .+ "m_12_0") .+ (("m_12_1" .& #0x07ffffff) .<< #27)) .+ (("m_13_0" .& #0x07ffffff) .<< #27)) .+ "c5";
    (*2244*) "c6" <- "d6" .>> #54;
    (*2245*) "d7" <- ((((((((((((((((((((((((((((((((((((((((((((("m_0_13" .>> #27) .+ "m_0_14") .+ (("m_0_15" .& #0x07ffffff) .<< #27)) .+ ("m_1_12" .>> #27)) .+ "m_1_13") .+ (("m_1_14" .& #0x07ffffff) .<< #27)) .+ ("m_2_11" .>> #27)) .+ "m_2_12") .+ (("m_2_13" .& #0x07ffffff) .<< #27)) .+ ("m_3_10" .>> #27)) .+ "m_3_11") .+ (("m_3_12" .& #0x07ffffff) .<< #27)) .+ ("m_4_9" .>> #27)) .+ "m_4_10") .+ (("m_4_11" .& #0x07ffffff) .<< #27)) .+ ("m_5_8" .>> #27)) .+ "m_5_9") .+ (("m_5_10" .& #0x07ffffff) .<< #27)) .+ ("m_6_7" .>> #27)) .+ "m_6_8") .+ (("m_6_9" .& #0x07ffffff) .<< #27)) .+ ("m_7_6" .>> #27)) .+ "m_7_7") .+ (("m_7_8" .& #0x07ffffff) .<< #27)) .+ ("m_8_5" .>> #27)) .+ "m_8_6") .+ (("m_8_7" .& #0x07ffffff) .<< #27)) .+ ("m_9_4" .>> #27)) .+ "m_9_5") .+ (("m_9_6" .& #0x07ffffff) .<< #27)) .+ ("m_10_3" .>> #27)) .+ "m_10_4") .+ (("m_10_5" .& #0x07ffffff) .<< #27)) .+ ("m_11_2" .>> #27)) .+ "m_11_3") .+ (("m_11_4" .& #0x07ffffff) .<< #27)) .+ ("m_12_1" .>> #27)) .+ "m_12_2") .+ (("m_12_3" .& #0x07ffffff) .<< #27)) .+ ("m_13_0" .>> #27)) .+ "m_13_1") .+ (("m_13_2" .& #0x07ffffff) .<< #27)) .+ "m_14_0") .+ (("m_14_1" .& #0x07ffffff) .<< #27)) .+ (("m_15_0" .& #0x07ffffff) .<< #27)) .+ "c6";
    (*2261*) "c7" <- "d7" .>> #54;
    (*2262*) "d8" <- ((((((((((((((((((((((((((((((((((((((((((((((((((("m_0_15" .>> #27) .+ "m_0_16") .+ (("m_0_17" .& #0x07ffffff) .<< #27)) .+ ("m_1_14" .>> #27)) .+ "m_1_15") .+ (("m_1_16" .& #0x07ffffff) .<< #27)) .+ ("m_2_13" .>> #27)) .+ "m_2_14") .+ (("m_2_15" .& #0x07ffffff) .<< #27)) .+ ("m_3_12" .>> #27)) .+ "m_3_13") .+ (("m_3_14" .& #0x07ffffff) .<< #27)) .+ ("m_4_11" .>> #27)) .+ "m_4_12") .+ (("m_4_13" .& #0x07ffffff) .<< #27)) .+ ("m_5_10" .>> #27)) .+ "m_5_11") .+ (("m_5_12" .& #0x07ffffff) .<< #27)) .+ ("m_6_9" .>> #27)) .+ "m_6_10") .+ (("m_6_11" .& #0x07ffffff) .<< #27)) .+ ("m_7_8" .>> #27)) .+ "m_7_9") .+ (("m_7_10" .& #0x07ffffff) .<< #27)) .+ ("m_8_7" .>> #27)) .+ "m_8_8") .+ (("m_8_9" .& #0x07ffffff) .<< #27)) .+ ("m_9_6" .>> #27)) .+ "m_9_7") .+ (("m_9_8" .& #0x07ffffff) .<< #27)) .+ ("m_10_5" .>> #27)) .+ "m_10_6") .+ (("m_10_7" .& #0x07ffffff) .<< #27)) .+ ("m_11_4" .>> #27)) .+ "m_11_5") .+ (("m_11_6" .& #0x07ffffff) .<< #27)) .+ ("m_12_3" .>> #27)) .+ "m_12_4") .+ (("m_12_5" .& #0x07ffffff) .<< #27)) .+ ("m_13_2" .>> #27)) .+ "m_13_3") .+ (("m_13_4" .& #0x07ffffff) .<< #27)) .+ ("m_14_1" .>> #27)) .+ "m_14_2") .+ (("m_14_3" .& #0x07ffffff) .<< #27)) .+ ("m_15_0" .>> #27)) .+ "m_15_1") .+ (("m_15_2" .& #0x07ffffff) .<< #27)) .+ "m_16_0") .+ (("m_16_1" .& #0x07ffffff) .<< #27)) .+ (("m_17_0" .& #0x07ffffff) .<< #27)) .+ "c7";
    (*2280*) "c8" <- "d8" .>> #54;
    (*2281*) "d9" <- ((((((((((((((((((((((((((((((((((((((((((((((((((((((((("m_0_17" .>> #27) .+ "m_0_18") .+ (("m_0_19" .& #0x07ffffff) .<< #27)) .+ ("m_1_16" .>> #27)) .+ "m_1_17") .+ (("m_1_18" .& #0x07ffffff) .<< #27)) .+ ("m_2_15" .>> #27)) .+ "m_2_16") .+ (("m_2_17" .& #0x07ffffff) .<< #27)) .+ ("m_3_14" .>> #27)) .+ "m_3_15") .+ (("m_3_16" .& #0x07ffffff) .<< #27)) .+ ("m_4_13" .>> #27)) .+ "m_4_14") .+ (("m_4_15" .& #0x07ffffff) .<< #27)) .+ ("m_5_12" .>> #27)) .+ "m_5_13") .+ (("m_5_14" .& #0x07ffffff) .<< #27)) .+ ("m_6_11" .>> #27)) .+ "m_6_12") .+ (("m_6_13" .& #0x07ffffff) .<< #27)) .+ ("m_7_10" .>> #27)) .+ "m_7_11") .+ (("m_7_12" .& #0x07ffffff) .<< #27)) .+ ("m_8_9" .>> #27)) .+ "m_8_10") .+ (("m_8_11" .& #0x07ffffff) .<< #27)) .+ ("m_9_8" .>> #27)) .+ "m_9_9") .+ (("m_9_10" .& #0x07ffffff) .<< #27)) .+ ("m_10_7" .>> #27)) .+ "m_10_8") .+ (("m_10_9" .& #0x07ffffff) .<< #27)) .+ ("m_11_6" .>> #27)) .+ "m_11_7") .+ (("m_11_8" .& #0x07ffffff) .<< #27)) .+ ("m_12_5" .>> #27)) .+ "m_12_6") .+ (("m_12_7" .& #0x07ffffff) .<< #27)) .+ ("m_13_4" .>> #27)) .+ "m_13_5") .+ (("m_13_6" .& #0x07ffffff) .<< #27)) .+ ("m_14_3" .>> #27)) .+ "m_14_4") .+ (("m_14_5" .& #0x07ffffff) .<< #27)) .+ ("m_15_2" .>> #27)) .+ "m_15_3") .+ (("m_15_4" .& #0x07ffffff) .<< #27)) .+ ("m_16_1" .>> #27)) .+ "m_16_2") .+ (("m_16_3" .& #0x07ffffff) .<< #27)) .+ ("m_17_0" .>> #27)) .+ "m_17_1") .+ (("m_17_2" .& #0x07ffffff) .<< #27)) .+ "m_18_0") .+ (("m_18_1" .& #0x07ffffff) .<< #27)) .+ (("m_19_0" .& #0x07ffffff) .<< #27)) .+ "c8";
    (*2301*) "c9" <- "d9" .>> #54;
    (*2302*) "d10" <- ((((((((((((((((((((((((((((((((((((((((((((((((((((((((("m_0_19" .>> #27) .+ ("m_1_18" .>> #27)) .+ "m_1_19") .+ ("m_2_17" .>> #27)) .+ "m_2_18") .+ (("m_2_19" .& #0x07ffffff) .<< #27)) .+ ("m_3_16" .>> #27)) .+ "m_3_17") .+ (("m_3_18" .& #0x07ffffff) .<< #27)) .+ ("m_4_15" .>> #27)) .+ "m_4_16") .+ (("m_4_17" .& #0x07ffffff) .<< #27)) .+ ("m_5_14" .>> #27)) .+ "m_5_15") .+ (("m_5_16" .& #0x07ffffff) .<< #27)) .+ ("m_6_13" .>> #27)) .+ "m_6_14") .+ (("m_6_15" .& #0x07ffffff) .<< #27)) .+ ("m_7_12" .>> #27)) .+ "m_7_13") .+ (("m_7_14" .& #0x07ffffff) .<< #27)) .+ ("m_8_11" .>> #27)) .+ "m_8_12") .+ (("m_8_13" .& #0x07ffffff) .<< #27)) .+ ("m_9_10" .>> #27)) .+ "m_9_11") .+ (("m_9_12" .& #0x07ffffff) .<< #27)) .+ ("m_10_9" .>> #27)) .+ "m_10_10") .+ (("m_10_11" .& #0x07ffffff) .<< #27)) .+ ("m_11_8" .>> #27)) .+ "m_11_9") .+ (("m_11_10" .& #0x07ffffff) .<< #27)) .+ ("m_12_7" .>> #27)) .+ "m_12_8") .+ (("m_12_9" .& #0x07ffffff) .<< #27)) .+ ("m_13_6" .>> #27)) .+ "m_13_7") .+ (("m_13_8" .& #0x07ffffff) .<< #27)) .+ ("m_14_5" .>> #27)) .+ "m_14_6") .+ (("m_14_7" .& #0x07ffffff) .<< #27)) .+ ("m_15_4" .>> #27)) .+ "m_15_5") .+ (("m_15_6" .& #0x07ffffff) .<< #27)) .+ ("m_16_3" .>> #27)) .+ "m_16_4") .+ (("m_16_5" .& #0x07ffffff) .<< #27)) .+ ("m_17_2" .>> #27)) .+ "m_17_3") .+ (("m_17_4" .& #0x07ffffff) .<< #27)) .+ ("m_18_1" .>> #27)) .+ "m_18_2") .+ (("m_18_3" .& #0x07ffffff) .<< #27)) .+ ("m_19_0" .>> #27)) .+ "m_19_1") .+ (("m_19_2" .& #0x07ffffff) .<< #27)) .+ "c9";
    (*2322*) "c10" <- "d10" .>> #54;
    (*2323*) "d11" <- ((((((((((((((((((((((((((((((((((((((((((((((((((("m_2_19" .>> #27) .+ ("m_3_18" .>> #27)) .+ "m_3_19") .+ ("m_4_17" .>> #27)) .+ "m_4_18") .+ (("m_4_19" .& #0x07ffffff) .<< #27)) .+ ("m_5_16" .>> #27)) .+ "m_5_17") .+ (("m_5_18" .& #0x07ffffff) .<< #27)) .+ ("m_6_15" .>> #27)) .+ "m_6_16") .+ (("m_6_17" .& #0x07ffffff) .<< #27)) .+ ("m_7_14" .>> #27)) .+ "m_7_15") .+ (("m_7_16" .& #0x07ffffff) .<< #27)) .+ ("m_8_13" .>> #27)) .+ "m_8_14") .+ (("m_8_15" .& #0x07ffffff) .<< #27)) .+ ("m_9_12" .>> #27)) .+ "m_9_13") .+ (("m_9_14" .& #0x07ffffff) .<< #27)) .+ ("m_10_11" .>> #27)) .+ "m_10_12") .+ (("m_10_13" .& #0x07ffffff) .<< #27)) .+ ("m_11_10" .>> #27)) .+ "m_11_11") .+ (("m_11_12" .& #0x07ffffff) .<< #27)) .+ ("m_12_9" .>> #27)) .+ "m_12_10") .+ (("m_12_11" .& #0x07ffffff) .<< #27)) .+ ("m_13_8" .>> #27)) .+ "m_13_9") .+ (("m_13_10" .& #0x07ffffff) .<< #27)) .+ ("m_14_7" .>> #27)) .+ "m_14_8") .+ (("m_14_9" .& #0x07ffffff) .<< #27)) .+ ("m_15_6" .>> #27)) .+ "m_15_7") .+ (("m_15_8" .& #0x07ffffff) .<< #27)) .+ ("m_16_5" .>> #27)) .+ "m_16_6") .+ (("m_16_7" .& #0x07ffffff) .<< #27)) .+ ("m_17_4" .>> #27)) .+ "m_17_5") .+ (("m_17_6" .& #0x07ffffff) .<< #27)) .+ ("m_18_3" .>> #27)) .+ "m_18_4") .+ (("m_18_5" .& #0x07ffffff) .<< #27)) .+ ("m_19_2" .>> #27)) .+ "m_19_3") .+ (("m_19_4" .& #0x07ffffff) .<< #27)) .+ "c10";
    (*2341*) "c11" <- "d11" .>> #54;
    (*2342*) "d12" <- ((((((((((((((((((((((((((((((((((((((((((((("m_4_19" .>> #27) .+ ("m_5_18" .>> #27)) .+ "m_5_19") .+ ("m_6_17" .>> #27)) .+ "m_6_18") .+ (("m_6_19" .& #0x07ffffff) .<< #27)) .+ ("m_7_16" .>> #27)) .+ "m_7_17") .+ (("m_7_18" .& #0x07ffffff) .<< #27)) .+ ("m_8_15" .>> #27)) .+ "m_8_16") .+ (("m_8_17" .& #0x07ffffff) .<< #27)) .+ ("m_9_14" .>> #27)) .+ "m_9_15") .+ (("m_9_16" .& #0x07ffffff) .<< #27)) .+ ("m_10_13" .>> #27)) .+ "m_10_14") .+ (("m_10_15" .& #0x07ffffff) .<< #27)) .+ ("m_11_12" .>> #27)) .+ "m_11_13") .+ (("m_11_14" .& #0x07ffffff) .<< #27)) .+ ("m_12_11" .>> #27)) .+ "m_12_12") .+ (("m_12_13" .& #0x07ffffff) .<< #27)) .+ ("m_13_10" .>> #27)) .+ "m_13_11") .+ (("m_13_12" .& #0x07ffffff) .<< #27)) .+ ("m_14_9" .>> #27)) .+ "m_14_10") .+ (("m_14_11" .& #0x07ffffff) .<< #27)) .+ ("m_15_8" .>> #27)) .+ "m_15_9") .+ (("m_15_10" .& #0x07ffffff) .<< #27)) .+ ("m_16_7" .>> #27)) .+ "m_16_8") .+ (("m_16_9" .& #0x07ffffff) .<< #27)) .+ ("m_17_6" .>> #27)) .+ "m_17_7") .+ (("m_17_8" .& #0x07ffffff) .<< #27)) .+ ("m_18_5" .>> #27)) .+ "m_18_6") .+ (("m_18_7" .& #0x07ffffff) .<< #27)) .+ ("m_19_4" .>> #27)) .+ "m_19_5") .+ (("m_19_6" .& #0x07ffffff) .<< #27)) .+ "c11";
    (*2358*) "c12" <- "d12" .>> #54;
    (*2359*) "d13" <- ((((((((((((((((((((((((((((((((((((((("m_6_19" .>> #27) .+ ("m_7_18" .>> #27)) .+ "m_7_19") .+ ("m_8_17" .>> #27)) .+ "m_8_18") .+ (("m_8_19" .& #0x07ffffff) .<< #27)) .+ ("m_9_16" .>> #27)) .+ "m_9_17") .+ (("m_9_18" .& #0x07ffffff) .<< #27)) .+ ("m_10_15" .>> #27)) .+ "m_10_16") .+ (("m_10_17" .& #0x07ffffff) .<< #27)) .+ ("m_11_14" .>> #27)) .+ "m_11_15") .+ (("m_11_16" .& #0x07ffffff) .<< #27)) .+ ("m_12_13" .>> #27)) .+ "m_12_14") .+ (("m_12_15" .& #0x07ffffff) .<< #27)) .+ ("m_13_12" .>> #27)) .+ "m_13_13") .+ (("m_13_14" .& #0x07ffffff) .<< #27)) .+ ("m_14_11" .>> #27)) .+ "m_14_12") .+ (("m_14_13" .& #0x07ffffff) .<< #27)) .+ ("m_15_10" .>> #27)) .+ "m_15_11") .+ (("m_15_12" .& #0x07ffffff) .<< #27)) .+ ("m_16_9" .>> #27)) .+ "m_16_10") .+ (("m_16_11" .& #0x07ffffff) .<< #27)) .+ ("m_17_8" .>> #27)) .+ "m_17_9") .+ (("m_17_10" .& #0x07ffffff) .<< #27)) .+ ("m_18_7" .>> #27)) .+ "m_18_8") .+ (("m_18_9" .& #0x07ffffff) .<< #27)) .+ ("m_19_6" .>> #27)) .+ "m_19_7") .+ (("m_19_8" .& #0x07ffffff) .<< #27)) .+ "c12";
    (*2373*) "c13" <- "d13" .>> #54;
    (*2374*) "d14" <- ((((((((((((((((((((((((((((((((("m_8_19" .>> #27) .+ ("m_9_18" .>> #27)) .+ "m_9_19") .+ ("m_10_17" .>> #27)) .+ "m_10_18") .+ (("m_10_19" .& #0x07ffffff) .<< #27)) .+ ("m_11_16" .>> #27)) .+ "m_11_17") .+ (("m_11_18" .& #0x07ffffff) .<< #27)) .+ ("m_12_15" .>> #27)) .+ "m_12_16") .+ (("m_12_17" .& #0x07ffffff) .<< #27)) .+ ("m_13_14" .>> #27)) .+ "m_13_15") .+ (("m_13_16" .& #0x07ffffff) .<< #27)) .+ ("m_14_13" .>> #27)) .+ "m_14_14") .+ (("m_14_15" .& #0x07ffffff) .<< #27)) .+ ("m_15_12" .>> #27)) .+ "m_15_13") .+ (("m_15_14" .& #0x07ffffff) .<< #27)) .+ ("m_16_11" .>> #27)) .+ "m_16_12") .+ (("m_16_13" .& #0x07ffffff) .<< #27)) .+ ("m_17_10" .>> #27)) .+ "m_17_11") .+ (("m_17_12" .& #0x07ffffff) .<< #27)) .+ ("m_18_9" .>> #27)) .+ "m_18_10") .+ (("m_18_11" .& #0x07ffffff) .<< #27)) .+ ("m_19_8" .>> #27)) .+ "m_19_9") .+ (("m_19_10" .& #0x07ffffff) .<< #27)) .+ "c13";
    (*2387*) "c14" <- "d14" .>> #54;
    (*2388*) "d15" <- ((((((((((((((((((((((((((("m_10_19" .>> #27) .+ ("m_11_18" .>> #27)) .+ "m_11_19") .+ ("m_12_17" .>> #27)) .+ "m_12_18") .+ (("m_12_19" .& #0x07ffffff) .<< #27)) .+ ("m_13_16" .>> #27)) .+ "m_13_17") .+ (("m_13_18" .& #0x07ffffff) .<< #27)) .+ ("m_14_15" .>> #27)) .+ "m_14_16") .+ (("m_14_17" .& #0x07ffffff) .<< #27)) .+ ("m_15_14" .>> #27)) .+ "m_15_15") .+ (("m_15_16" .& #0x07ffffff) .<< #27)) .+ ("m_16_13" .>> #27)) .+ "m_16_14") .+ (("m_16_15" .& #0x07ffffff) .<< #27)) .+ ("m_17_12" .>> #27)) .+ "m_17_13") .+ (("m_17_14" .& #0x07ffffff) .<< #27)) .+ ("m_18_11" .>> #27)) .+ "m_18_12") .+ (("m_18_13" .& #0x07ffffff) .<< #27)) .+ ("m_19_10" .>> #27)) .+ "m_19_11") .+ (("m_19_12" .& #0x07ffffff) .<< #27)) .+ "c14";
    (*2399*) "c15" <- "d15" .>> #54;
    (*2400*) "d16" <- ((((((((((((((((((((("m_12_19" .>> #27) .+ ("m_13_18" .>> #27)) .+ "m_13_19") .+ ("m_14_17" .>> #27)) .+ "m_14_18") .+ (("m_14_19" .& #0x07ffffff) .<< #27)) .+ ("m_15_16" .>> #27)) .+ "m_15_17") .+ (("m_15_18" .& #0x07ffffff) .<< #27)) .+ ("m_16_15" .>> #27)) .+ "m_16_16") .+ (("m_16_17" .& #0x07ffffff) .<< #27)) .+ ("m_17_14" .>> #27)) .+ "m_17_15") .+ (("m_17_16" .& #0x07ffffff) .<< #27)) .+ ("m_18_13" .>> #27)) .+ "m_18_14") .+ (("m_18_15" .& #0x07ffffff) .<< #27)) .+ ("m_19_12" .>> #27)) .+ "m_19_13") .+ (("m_19_14" .& #0x07ffffff) .<< #27)) .+ "c15";
    (*2409*) "c16" <- "d16" .>> #54;
    (*2410*) "d17" <- ((((((((((((((("m_14_19" .>> #27) .+ ("m_15_18" .>> #27)) .+ "m_15_19") .+ ("m_16_17" .>> #27)) .+ "m_16_18") .+ (("m_16_19" .& #0x07ffffff) .<< #27)) .+ ("m_17_16" .>> #27)) .+ "m_17_17") .+ (("m_17_18" .& #0x07ffffff) .<< #27)) .+ ("m_18_15" .>> #27)) .+ "m_18_16") .+ (("m_18_17" .& #0x07ffffff) .<< #27)) .+ ("m_19_14" .>> #27)) .+ "m_19_15") .+ (("m_19_16" .& #0x07ffffff) .<< #27)) .+ "c16";
    (*2417*) "c17" <- "d17" .>> #54;
    (*2418*) "d18" <- ((((((((("m_16_19" .>> #27) .+ ("m_17_18" .>> #27)) .+ "m_17_19") .+ ("m_18_17" .>> #27)) .+ "m_18_18") .+ (("m_18_19" .& #0x07ffffff) .<< #27)) .+ ("m_19_16" .>> #27)) .+ "m_19_17") .+ (("m_19_18" .& #0x07ffffff) .<< #27)) .+ "c17";
    (*2423*) "c18" <- "d18" .>> #54;
    (*2424*) "d19" <- ((("m_18_19" .>> #27) .+ ("m_19_18" .>> #27)) .+ "m_19_19") .+ "c18";
    (*2430*) "l0_0" <- "d0" .& #0x003fffffffffffff;
    (*2431*) "l1_0" <- "d1" .& #0x003fffffffffffff;
    (*2432*) "l2_0" <- "d2" .& #0x003fffffffffffff;
    (*2433*) "l3_0" <- "d3" .& #0x003fffffffffffff;
    (*2434*) "l4_0" <- "d4" .& #0x003fffffffffffff;
    (*2435*) "l5_0" <- "d5" .& #0x003fffffffffffff;
    (*2436*) "l6_0" <- "d6" .& #0x003fffffffffffff;
    (*2437*) "l7_0" <- "d7" .& #0x003fffffffffffff;
    (*2438*) "l8_0" <- "d8" .& #0x003fffffffffffff;
    (*2439*) "l9_0" <- "d9" .& #0x00000007ffffffff;
    (*2442*) "h0_0" <- (("d9" .& #0x003fffffffffffff) .>> #35) .| (("d10" .& #0x00000007ffffffff) .<< #19);
    (*2444*) "h1_0" <- (("d10" .& #0x003fffffffffffff) .>> #35) .| (("d11" .& #0x00000007ffffffff) .<< #19);
    (*2446*) "h2_0" <- (("d11" .& #0x003fffffffffffff) .>> #35) .| (("d12" .& #0x00000007ffffffff) .<< #19);
    (*2448*) "h3_0" <- (("d12" .& #0x003fffffffffffff) .>> #35) .| (("d13" .& #0x00000007ffffffff) .<< #19);
    (*2450*) "h4_0" <- (("d13" .& #0x003fffffffffffff) .>> #35) .| (("d14" .& #0x00000007ffffffff) .<< #19);
    (*2452*) "h5_0" <- (("d14" .& #0x003fffffffffffff) .>> #35) .| (("d15" .& #0x00000007ffffffff) .<< #19);
    (*2454*) "h6_0" <- (("d15" .& #0x003fffffffffffff) .>> #35) .| (("d16" .& #0x00000007ffffffff) .<< #19);
    (*2456*) "h7_0" <- (("d16" .& #0x003fffffffffffff) .>> #35) .| (("d17" .& #0x00000007ffffffff) .<< #19);
    (*2458*) "h8_0" <- (("d17" .& #0x003fffffffffffff) .>> #35) .| (("d18" .& #0x00000007ffffffff) .<< #19);
    (*2460*) "h9_0" <- (("d18" .& #0x003fffffffffffff) .>> #35) .| ("d19" .<< #19);
    (*2466*) "kin_0" <- "h9_0" .>> #35;
    (*2467*) "s0_0" <- ("l0_0" .+ "h0_0") .+ "kin_0";
    (*2468*) "k0_0" <- "s0_0" .>> #54;
    (*2469*) "s1_0" <- ("l1_0" .+ "h1_0") .+ "k0_0";
    (*2470*) "k1_0" <- "s1_0" .>> #54;
    (*2471*) "s2_0" <- ("l2_0" .+ "h2_0") .+ "k1_0";
    (*2472*) "k2_0" <- "s2_0" .>> #54;
    (*2473*) "s3_0" <- ("l3_0" .+ "h3_0") .+ "k2_0";
    (*2474*) "k3_0" <- "s3_0" .>> #54;
    (*2475*) "s4_0" <- ("l4_0" .+ "h4_0") .+ "k3_0";
    (*2476*) "k4_0" <- "s4_0" .>> #54;
    (*2477*) "s5_0" <- ("l5_0" .+ "h5_0") .+ "k4_0";
    (*2478*) "k5_0" <- "s5_0" .>> #54;
    (*2479*) "s6_0" <- ("l6_0" .+ "h6_0") .+ "k5_0";
    (*2480*) "k6_0" <- "s6_0" .>> #54;
    (*2481*) "s7_0" <- ("l7_0" .+ "h7_0") .+ "k6_0";
    (*2482*) "k7_0" <- "s7_0" .>> #54;
    (*2483*) "s8_0" <- ("l8_0" .+ "h8_0") .+ "k7_0";
    (*2484*) "k8_0" <- "s8_0" .>> #54;
    (*2485*) "s9_0" <- ("l9_0" .+ ("h9_0" .& #0x00000007ffffffff)) .+ "k8_0";
    (*2487*) SSet "self" #0 ("s0_0" .& #0x003fffffffffffff);
    (*2488*) SSet "self" #1 ("s1_0" .& #0x003fffffffffffff);
    (*2489*) SSet "self" #2 ("s2_0" .& #0x003fffffffffffff);
    (*2490*) SSet "self" #3 ("s3_0" .& #0x003fffffffffffff);
    (*2491*) SSet "self" #4 ("s4_0" .& #0x003fffffffffffff);
    (*2492*) SSet "self" #5 ("s5_0" .& #0x003fffffffffffff);
    (*2493*) SSet "self" #6 ("s6_0" .& #0x003fffffffffffff);
    (*2494*) SSet "self" #7 ("s7_0" .& #0x003fffffffffffff);
    (*2495*) SSet "self" #8 ("s8_0" .& #0x003fffffffffffff);
    (*2496*) SSet "self" #9 ("s9_0") ]
    [].

(* src/field/mod_e521_1.rs:2499-2505  PrimeField  F::squared *)
Definition f_squared : func := mkfunc ["self"] [
    (*2500*) "out" <- "self";
    (*2502*) SCall [] "F::square" [AMut "out"] ]
    [EVar "out"].

(* src/field/mod_e521_1.rs:2507-2518  PrimeField  F::invert *)
Definition f_invert : func := mkfunc ["self"] [
    (*2508*) "sqval" <- "self";
    (*2511*) SCall [] "F::square" [AMut "sqval"];
    (*2514*) SFor "_" #2 #521 [
      (*2515*) SCall [] "F::square" [AMut "sqval"];
      (*2516*) SCall [] "F::mul_assign(&F)" [AMut "self"; AVal "sqval"] ] ]
    [].

(* src/field/mod_e521_1.rs:2520-2526  PrimeField  F::inverted *)
Definition f_inverted : func := mkfunc ["self"] [
    (*2521*) "out" <- "self";
    (*2523*) SCall [] "F::invert" [AMut "out"] ]
    [EVar "out"].

(* src/field/mod_e521_1.rs:2528-2540  PrimeField  F::legendre *)
Definition f_legendre : func := mkfunc ["self"] [
    (*2530*) "out" <- "self";
    (*2531*) "sqval" <- "out";
    (*2534*) SFor "_" #1 #520 [
      (*2535*) SCall [] "F::square" [AMut "sqval"];
      (*2536*) SCall [] "F::mul_assign(&F)" [AMut "out"; AVal "sqval"] ] ]
    [EVar "out"].

(* src/field/mod_e521_1.rs:2542-2551  PrimeField  F::sqrt *)
Definition f_sqrt : func := mkfunc ["self"] [
    (*2543*) "out" <- "self";
    (*2546*) SFor "_" #0 #519 [
      (*2547*) SCall [] "F::square" [AMut "out"] ] ]
    [EVar "out"].

(* src/field/mod_e521_1.rs:2553-2598  PrimeField  F::small_add_assign *)
Definition f_small_add_assign : func := mkfunc ["self"; "rhs"] [
    (*2554*) "a0" <- "self".[#0];
    (*2555*) "a1" <- "self".[#1];
    (*2556*) "a2" <- "self".[#2];
    (*2557*) "a3" <- "self".[#3];
    (*2558*) "a4" <- "self".[#4];
    (*2559*) "a5" <- "self".[#5];
    (*2560*) "a6" <- "self".[#6];
    (*2561*) "a7" <- "self".[#7];
    (*2562*) "a8" <- "self".[#8];
    (*2563*) "a9" <- ("self".[#9]) .& #0x00000007ffffffff;
    (*2565*) "b" <- ECast I64 "rhs";
    (*2567*) "cin" <- carry_out "self";
    (*2568*) "s0" <- ("a0" .+ "b") .+ ("cin" .* (EInt C_VAL));
    (*2569*) "c0" <- "s0" .>> #54;
    (*2570*) "s1" <- "a1" .+ "c0";
    (*2571*) "c1" <- "s1" .>> #54;
    (*2572*) "s2" <- "a2" .+ "c1";
    (*2573*) "c2" <- "s2" .>> #54;
    (*2574*) "s3" <- "a3" .+ "c2";
    (*2575*) "c3" <- "s3" .>> #54;
    (*2576*) "s4" <- "a4" .+ "c3";
    (*2577*) "c4" <- "s4" .>> #54;
    (*2578*) "s5" <- "a5" .+ "c4";
    (*2579*) "c5" <- "s5" .>> #54;
    (*2580*) "s6" <- "a6" .+ "c5";
    (*2581*) "c6" <- "s6" .>> #54;
    (*2582*) "s7" <- "a7" .+ "c6";
    (*2583*) "c7" <- "s7" .>> #54;
    (*2584*) "s8" <- "a8" .+ "c7";
    (*2585*) "c8" <- "s8" .>> #54;
    (*2586*) "s9" <- "a9" .+ "c8";
    (*2588*) SSet "self" #0 ("s0" .& #0x003fffffffffffff);
    (*2589*) SSet "self" #1 ("s1" .& #0x003fffffffffffff);
    (*2590*) SSet "self" #2 ("s2" .& #0x003fffffffffffff);
    (*2591*) SSet "self" #3 ("s3" .& #0x003fffffffffffff);
    (*2592*) SSet "self" #4 ("s4" .& #0x003fffffffffffff);
    (*2593*) SSet "self" #5 ("s5" .& #0x003fffffffffffff);
    (*2594*) SSet "self" #6 ("s6" .& #0x003fffffffffffff);
    (*2595*) SSet "self" #7 ("s7" .& #0x003fffffffffffff);
    (*2596*) SSet "self" #8 ("s8" .& #0x003fffffffffffff);
    (*2597*) SSet "self" #9 ("s9") ]
    [].

(* src/field/mod_e521_1.rs:2600-2606  PrimeField  F::small_add *)
Definition f_small_add : func := mkfunc ["self"; "rhs"] [
    (*2601*) "out" <- "self";
    (*2603*) SCall [] "F::small_add_assign" [AMut "out"; AVal "rhs"] ]
    [EVar "out"].

(* src/field/mod_e521_1.rs:2608-2653  PrimeField  F::small_sub_assign *)
Definition f_small_sub_assign : func := mkfunc ["self"; "rhs"] [
    (*2609*) "a0" <- "self".[#0];
    (*2610*) "a1" <- "self".[#1];
    (*2611*) "a2" <- "self".[#2];
    (*2612*) "a3" <- "self".[#3];
    (*2613*) "a4" <- "self".[#4];
    (*2614*) "a5" <- "self".[#5];
    (*2615*) "a6" <- "self".[#6];
    (*2616*) "a7" <- "self".[#7];
    (*2617*) "a8" <- "self".[#8];
    (*2618*) "a9" <- ("self".[#9]) .& #0x00000007ffffffff;
    (*2620*) "b" <- ECast I64 "rhs";
    (*2622*) "cin" <- carry_out "self";
    (*2623*) "s0" <- ("a0" .- "b") .+ ("cin" .* (EInt C_VAL));
    (*2624*) "c0" <- "s0" .>> #54;
    (*2625*) "s1" <- "a1" .+ "c0";
    (*2626*) "c1" <- "s1" .>> #54;
    (*2627*) "s2" <- "a2" .+ "c1";
    (*2628*) "c2" <- "s2" .>> #54;
    (*2629*) "s3" <- "a3" .+ "c2";
    (*2630*) "c3" <- "s3" .>> #54;
    (*2631*) "s4" <- "a4" .+ "c3";
    (*2632*) "c4" <- "s4" .>> #54;
    (*2633*) "s5" <- "a5" .+ "c4";
    (*2634*) "c5" <- "s5" .>> #54;
    (*2635*) "s6" <- "a6" .+ "c5";
    (*2636*) "c6" <- "s6" .>> #54;
    (*2637*) "s7" <- "a7" .+ "c6";
    (*2638*) "c7" <- "s7" .>> #54;
    (*2639*) "s8" <- "a8" .+ "c7";
    (*2640*) "c8" <- "s8" .>> #54;
    (*2641*) "s9" <- "a9" .+ "c8";
    (*2643*) SSet "self" #0 ("s0" .& #0x003fffffffffffff);
    (*2644*) SSet "self" #1 ("s1" .& #0x003fffffffffffff);
    (*2645*) SSet "self" #2 ("s2" .& #0x003fffffffffffff);
    (*2646*) SSet "self" #3 ("s3" .& #0x003fffffffffffff);
    (*2647*) SSet "self" #4 ("s4" .& #0x003fffffffffffff);
    (*2648*) SSet "self" #5 ("s5" .& #0x003fffffffffffff);
    (*2649*) SSet "self" #6 ("s6" .& #0x003fffffffffffff);
    (*2650*) SSet "self" #7 ("s7" .& #0x003fffffffffffff);
    (*2651*) SSet "self" #8 ("s8" .& #0x003fffffffffffff);
    (*2652*) SSet "self" #9 ("s9") ]
    [].

(* src/field/mod_e521_1.rs:2655-2661  PrimeField  F::small_sub *)
Definition f_small_sub : func := mkfunc ["self"; "rhs"] [
    (*2656*) "out" <- "self";
    (*2658*) SCall [] "F::small_sub_assign" [AMut "out"; AVal "rhs"] ]
    [EVar "out"].

(* src/field/mod_e521_1.rs:2663-2739  PrimeField  F::small_mul_assign *)
Definition f_small_mul_assign : func := mkfunc ["self"; "rhs"] [
    (*2664*) "a0" <- ("self".[#0]) .& #0x07ffffff;
    (*2665*) "a1" <- ("self".[#0]) .>> #27;
    (*2666*) "a2" <- ("self".[#1]) .& #0x07ffffff;
    (*2667*) "a3" <- ("self".[#1]) .>> #27;
    (*2668*) "a4" <- ("self".[#2]) .& #0x07ffffff;
    (*2669*) "a5" <- ("self".[#2]) .>> #27;
    (*2670*) "a6" <- ("self".[#3]) .& #0x07ffffff;
    (*2671*) "a7" <- ("self".[#3]) .>> #27;
    (*2672*) "a8" <- ("self".[#4]) .& #0x07ffffff;
    (*2673*) "a9" <- ("self".[#4]) .>> #27;
    (*2674*) "a10" <- ("self".[#5]) .& #0x07ffffff;
    (*2675*) "a11" <- ("self".[#5]) .>> #27;
    (*2676*) "a12" <- ("self".[#6]) .& #0x07ffffff;
    (*2677*) "a13" <- ("self".[#6]) .>> #27;
    (*2678*) "a14" <- ("self".[#7]) .& #0x07ffffff;
    (*2679*) "a15" <- ("self".[#7]) .>> #27;
    (*2680*) "a16" <- ("self".[#8]) .& #0x07ffffff;
    (*2681*) "a17" <- ("self".[#8]) .>> #27;
    (*2682*) "a18" <- ("self".[#9]) .& #0x07ffffff;
    (*2683*) "a19" <- ("self".[#9]) .>> #27;
    (*2685*) "b" <- ECast I64 "rhs";
    (*2687*) "m0" <- "a0" .* "b";
    (*2688*) "m1" <- "a1" .* "b";
    (*2689*) "m2" <- "a2" .* "b";
    (*2690*) "m3" <- "a3" .* "b";
    (*2691*) "m4" <- "a4" .* "b";
    (*2692*) "m5" <- "a5" .* "b";
    (*2693*) "m6" <- "a6" .* "b";
    (*2694*) "m7" <- "a7" .* "b";
    (*2695*) "m8" <- "a8" .* "b";
    (*2696*) "m9" <- "a9" .* "b";
    (*2697*) "m10" <- "a10" .* "b";
    (*2698*) "m11" <- "a11" .* "b";
    (*2699*) "m12" <- "a12" .* "b";
    (*2700*) "m13" <- "a13" .* "b";
    (*2701*) "m14" <- "a14" .* "b";
    (*2702*) "m15" <- "a15" .* "b";
    (*2703*) "m16" <- "a16" .* "b";
    (*2704*) "m17" <- "a17" .* "b";
    (*2705*) "m18" <- "a18" .* "b";
    (*2706*) "m19" <- "a19" .* "b";
    (*2708*) "cin" <- carry_out "self";
    (*2709*) "d0" <- ("m0" .+ (("m1" .& #0x07ffffff) .<< #27)) .+ ("cin" .* (EInt C_VAL));
    (*2710*) "c0" <- "d0" .>> #54;
    (*2711*) "d1" <- ((("m1" .>> #27) .+ "m2") .+ (("m3" .& #0x07ffffff) .<< #27)) .+ "c0";
    (*2712*) "c1" <- "d1" .>> #54;
    (*2713*) "d2" <- ((("m3" .>> #27) .+ "m4") .+ (("m5" .& #0x07ffffff) .<< #27)) .+ "c1";
    (*2714*) "c2" <- "d2" .>> #54;
    (*2715*) "d3" <- ((("m5" .>> #27) .+ "m6") .+ (("m7" .& #0x07ffffff) .<< #27)) .+ "c2";
    (*2716*) "c3" <- "d3" .>> #54;
    (*2717*) "d4" <- ((("m7" .>> #27) .+ "m8") .+ (("m9" .& #0x07ffffff) .<< #27)) .+ "c3";
    (*2718*) "c4" <- "d4" .>> #54;
    (*2719*) "d5" <- ((("m9" .>> #27) .+ "m10") .+ (("m11" .& #0x07ffffff) .<< #27)) .+ "c4";
    (*2720*) "c5" <- "d5" .>> #54;
    (*2721*) "d6" <- ((("m11" .>> #27) .+ "m12") .+ (("m13" .& #0x07ffffff) .<< #27)) .+ "c5";
    (*2722*) "c6" <- "d5" .>> #54;
    (*2723*) "d7" <- ((("m13" .>> #27) .+ "m14") .+ (("m15" .& #0x07ffffff) .<< #27)) .+ "c6";
    (*2724*) "c7" <- "d6" .>> #54;
    (*2725*) "d8" <- ((("m15" .>> #27) .+ "m16") .+ (("m17" .& #0x07ffffff) .<< #27)) .+ "c7";
    (*2726*) "c8" <- "d7" .>> #54;
    (*2727*) "d9" <- ((("m17" .>> #27) .+ "m18") .+ ("m19" .<< #27)) .+ "c8";
    (*2729*) SSet "self" #0 ("d0" .& #0x003fffffffffffff);
    (*2730*) SSet "self" #1 ("d1" .& #0x003fffffffffffff);
    (*2731*) SSet "self" #2 ("d2" .& #0x003fffffffffffff);
    (*2732*) SSet "self" #3 ("d3" .& #0x003fffffffffffff);
    (*2733*) SSet "self" #4 ("d4" .& #0x003fffffffffffff);
    (*2734*) SSet "self" #5 ("d5" .& #0x003fffffffffffff);
    (*2735*) SSet "self" #6 ("d6" .& #0x003fffffffffffff);
    (*2736*) SSet "self" #7 ("d7" .& #0x003fffffffffffff);
    (*2737*) SSet "self" #8 ("d8" .& #0x003fffffffffffff);
    (*2738*) SSet "self" #9 ("d9") ]
    [].

(* src/field/mod_e521_1.rs:2741-2747  PrimeField  F::small_mul *)
Definition f_small_mul : func := mkfunc ["self"; "b"] [
    (*2742*) "out" <- "self";
    (*2744*) SCall [] "F::small_mul_assign" [AMut "out"; AVal "b"] ]
    [EVar "out"].

(* the function table of this file: every non-test function *)
Definition table : list (string * func) := [
  ("F::Debug::fmt", f_Debug_fmt);
  ("F::LowerHex::fmt", f_LowerHex_fmt);
  ("F::UpperHex::fmt", f_UpperHex_fmt);
  ("F::packed", f_packed);
  ("F::neg", f_neg);
  ("F::add_assign(&F)", f_add_assign_ref);
  ("F::add_assign(F)", f_add_assign_val);
  ("F::add_assign(i32)", f_add_assign_i32);
  ("F::add_assign(i16)", f_add_assign_i16);
  ("F::add_assign(i8)", f_add_assign_i8);
  ("(&F)::add(&F)", f_ref_add_ref);
  ("F::add(F)", f_add_val);
  ("i32::add(&F)", f_i32_add_ref);
  ("i16::add(&F)", f_i16_add_ref);
  ("i8::add(&F)", f_i8_add_ref);
  ("(&F)::add(i32)", f_ref_add_i32);
  ("(&F)::add(i16)", f_ref_add_i16);
  ("(&F)::add(i8)", f_ref_add_i8);
  ("F::add(i32)", f_add_i32);
  ("F::add(i16)", f_add_i16);
  ("F::add(i8)", f_add_i8);
  ("F::div_assign(&F)", f_div_assign_ref);
  ("F::div_assign(F)", f_div_assign_val);
  ("(&F)::div(&F)", f_ref_div_ref);
  ("F::div(F)", f_div_val);
  ("F::sub_assign(&F)", f_sub_assign_ref);
  ("F::sub_assign(F)", f_sub_assign_val);
  ("F::sub_assign(i32)", f_sub_assign_i32);
  ("F::sub_assign(i16)", f_sub_assign_i16);
  ("F::sub_assign(i8)", f_sub_assign_i8);
  ("F::sub(i32)", f_sub_i32);
  ("F::sub(i16)", f_sub_i16);
  ("F::sub(i8)", f_sub_i8);
  ("(&F)::sub(&F)", f_ref_sub_ref);
  ("F::sub(F)", f_sub_val);
  ("(&F)::sub(i32)", f_ref_sub_i32);
  ("(&F)::sub(i16)", f_ref_sub_i16);
  ("(&F)::sub(i8)", f_ref_sub_i8);
  ("F::mul_assign(i32)", f_mul_assign_i32);
  ("F::mul_assign(i16)", f_mul_assign_i16);
  ("F::mul_assign(i8)", f_mul_assign_i8);
  ("F::mul_assign(&F)", f_mul_assign_ref);
  ("F::mul_assign(F)", f_mul_assign_val);
  ("i32::mul(&F)", f_i32_mul_ref);
  ("i16::mul(&F)", f_i16_mul_ref);
  ("i8::mul(&F)", f_i8_mul_ref);
  ("(&F)::mul(i32)", f_ref_mul_i32);
  ("(&F)::mul(i16)", f_ref_mul_i16);
  ("(&F)::mul(i8)", f_ref_mul_i8);
  ("F::mul(i32)", f_mul_i32);
  ("F::mul(i16)", f_mul_i16);
  ("F::mul(i8)", f_mul_i8);
  ("(&F)::mul(&F)", f_ref_mul_ref);
  ("F::mul(F)", f_mul_val);
  ("F::rand", f_rand);
  ("F::unpack", f_unpack);
  ("F::unpacked", f_unpacked);
  ("F::pack", f_pack);
  ("F::pack_normalized", f_pack_normalized);
  ("F::nbytes", f_nbytes);
  ("F::normalize", f_normalize);
  ("F::normalize_self_eq", f_normalize_self_eq);
  ("F::normalize_eq", f_normalize_eq);
  ("Mask::fill", f_Mask_fill);
  ("Mask::filled", f_Mask_filled);
  ("F::fill", f_fill);
  ("F::filled", f_filled);
  ("F::nbits", f_nbits);
  ("F::bit_normalized", f_bit_normalized);
  ("F::bit", f_bit);
  ("F::normalize_bitand", f_normalize_bitand);
  ("F::normalize_self_bitand", f_normalize_self_bitand);
  ("F::normalized_bitand", f_normalized_bitand);
  ("F::normalize_bitor", f_normalize_bitor);
  ("F::normalize_self_bitor", f_normalize_self_bitor);
  ("F::normalized_bitor", f_normalized_bitor);
  ("F::zero", f_zero);
  ("F::one", f_one);
  ("F::m_one", f_m_one);
  ("F::modulus", f_modulus);
  ("F::square", f_square);
  ("F::squared", f_squared);
  ("F::invert", f_invert);
  ("F::inverted", f_inverted);
  ("F::legendre", f_legendre);
  ("F::sqrt", f_sqrt);
  ("F::small_add_assign", f_small_add_assign);
  ("F::small_add", f_small_add);
  ("F::small_sub_assign", f_small_sub_assign);
  ("F::small_sub", f_small_sub);
  ("F::small_mul_assign", f_small_mul_assign);
  ("F::small_mul", f_small_mul)].
