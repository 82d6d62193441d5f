(* Generated by tools/rust2coq.py from src/field/mod_e251_9.rs -- do not edit.
   One definition per item; each statement is preceded by its source line. *)
From Coq Require Import ZArith List String.
From Verif Require Import Lang.
Import ListNotations LangNotations.
Local Open Scope Z_scope.
Local Open Scope string_scope.

(* src/field/mod_e251_9.rs:41 *)
Definition C_VAL : Z := 9.

(* src/field/mod_e251_9.rs:44-44 *)
Definition ZERO : list Z := [0; 0; 0; 0; 0].

(* src/field/mod_e251_9.rs:47-47 *)
Definition ONE : list Z := [1; 0; 0; 0; 0].

(* src/field/mod_e251_9.rs:50-53 *)
Definition M_ONE : list Z := [0x00fffffffffffff6; 0x00ffffffffffffff; 0x00ffffffffffffff; 0x00ffffffffffffff; 0x0000000007ffffff].

(* src/field/mod_e251_9.rs:56-59 *)
Definition MODULUS : list Z := [0x00fffffffffffff7; 0x00ffffffffffffff; 0x00ffffffffffffff; 0x00ffffffffffffff; 0x0000000007ffffff].

(* src/field/mod_e251_9.rs:64-67 *)
Definition CURVE1174_D : list Z := [0x00fffffffffffb61; 0x00ffffffffffffff; 0x00ffffffffffffff; 0x00ffffffffffffff; 0x0000000007ffffff].

(* src/field/mod_e251_9.rs:71-74 *)
Definition CURVE1174_BASE_X : list Z := [0x00123f27bce29eda; 0x00d96a492ecd6516; 0x00e7c029a190c021; 0x00ea308c479343ae; 0x00000000037fbb0c].

(* src/field/mod_e251_9.rs:78-81 *)
Definition CURVE1174_BASE_Y : list Z := [0x00ccb1bf9b46360e; 0x00dee2af3f976ba4; 0x001169840e0c4fe2; 0x00d47fb7cc665684; 0x0000000006b72f82].

(* src/field/mod_e251_9.rs:85-88 *)
Definition CURVE1174_ORDER : list Z := [0x0044d45fd166c971; 0x0065c4dfd3073489; 0x00fffffffffff779; 0x00ffffffffffffff; 0x0000000001ffffff].

(* src/field/mod_e251_9.rs:132-134  inherent F::carry_out (one-line method, kept as a macro on its receiver) *)
Definition carry_out (self : expr) : expr := self.[#4] .>> #27.

(* src/field/mod_e251_9.rs:91-99  Debug  F::Debug::fmt *)
Definition f_Debug_fmt : func := mkfunc ["self"; "f"] [
    (*92*) SPushStr "f" "Mod_e251_9: [ ";
    (*92*) SPushHex "f" false false 64 ("self".[#0]);
    (*94*) SFor "i" #1 #5 [
      (*95*) SPushStr "f" ", ";
      (*95*) SPushHex "f" false false 64 ("self".["i"]) ];
    (*98*) SPushStr "f" " ]" ]
    [].

(* src/field/mod_e251_9.rs:103-112  LowerHex  F::LowerHex::fmt *)
Definition f_LowerHex_fmt : func := mkfunc ["self"; "f"] [
    (*104*) "cpy" <- "self";
    (*105*) SCall ["bytes"] "F::packed" [AMut "cpy"];
    (*107*) SFor "i" #0 #32 [
      (*108*) SPushHex "f" false true 8 ("bytes".[EUSub #31 "i"]) ] ]
    [].

(* src/field/mod_e251_9.rs:116-125  UpperHex  F::UpperHex::fmt *)
Definition f_UpperHex_fmt : func := mkfunc ["self"; "f"] [
    (*117*) "cpy" <- "self";
    (*118*) SCall ["bytes"] "F::packed" [AMut "cpy"];
    (*120*) SFor "i" #0 #32 [
      (*121*) SPushHex "f" true true 8 ("bytes".[EUSub #31 "i"]) ] ]
    [].

(* src/field/mod_e251_9.rs:138-142  inherent  F::packed *)
Definition f_packed : func := mkfunc ["self"] [
    (*139*) "out" <- ERep #0 32;
    (*140*) SCall [] "F::pack" [AMut "self"; AMut "out"] ]
    [EVar "out"].

(* src/field/mod_e251_9.rs:148-153  Neg  F::neg *)
Definition f_neg : func := mkfunc ["self"] [
    (*149*) "out" <- "self";
    (*151*) SCall [] "F::add_assign(&F)" [AMut "out"; AVal (ELit MODULUS)] ]
    [EVar "out"].

(* src/field/mod_e251_9.rs:157-186  AddAssign<&F>  F::add_assign(&F) *)
Definition f_add_assign_ref : func := mkfunc ["self"; "rhs"] [
    (*158*) "a0" <- "self".[#0];
    (*159*) "a1" <- "self".[#1];
    (*160*) "a2" <- "self".[#2];
    (*161*) "a3" <- "self".[#3];
    (*162*) "a4" <- ("self".[#4]) .& #0x0000000007ffffff;
    (*164*) "b0" <- "rhs".[#0];
    (*165*) "b1" <- "rhs".[#1];
    (*166*) "b2" <- "rhs".[#2];
    (*167*) "b3" <- "rhs".[#3];
    (*168*) "b4" <- ("rhs".[#4]) .& #0x0000000007ffffff;
    (*170*) "cin" <- (carry_out "self") .+ (carry_out "rhs");
    (*171*) "s0" <- ("a0" .+ "b0") .+ ("cin" .* (EInt C_VAL));
    (*172*) "c0" <- "s0" .>> #56;
    (*173*) "s1" <- ("a1" .+ "b1") .+ "c0";
    (*174*) "c1" <- "s1" .>> #56;
    (*175*) "s2" <- ("a2" .+ "b2") .+ "c1";
    (*176*) "c2" <- "s2" .>> #56;
    (*177*) "s3" <- ("a3" .+ "b3") .+ "c2";
    (*178*) "c3" <- "s3" .>> #56;
    (*179*) "s4" <- ("a4" .+ "b4") .+ "c3";
    (*181*) SSet "self" #0 ("s0" .& #0x00ffffffffffffff);
    (*182*) SSet "self" #1 ("s1" .& #0x00ffffffffffffff);
    (*183*) SSet "self" #2 ("s2" .& #0x00ffffffffffffff);
    (*184*) SSet "self" #3 ("s3" .& #0x00ffffffffffffff);
    (*185*) SSet "self" #4 ("s4") ]
    [].

(* src/field/mod_e251_9.rs:190-192  AddAssign<F>  F::add_assign(F) *)
Definition f_add_assign_val : func := mkfunc ["self"; "rhs"] [
    (*191*) SCall [] "F::add_assign(&F)" [AMut "self"; AVal "rhs"] ]
    [].

(* src/field/mod_e251_9.rs:196-198  AddAssign<i32>  F::add_assign(i32) *)
Definition f_add_assign_i32 : func := mkfunc ["self"; "rhs"] [
    (*197*) SCall [] "F::small_add_assign" [AMut "self"; AVal "rhs"] ]
    [].

(* src/field/mod_e251_9.rs:202-204  AddAssign<i16>  F::add_assign(i16) *)
Definition f_add_assign_i16 : func := mkfunc ["self"; "rhs"] [
    (*203*) SCall [] "F::small_add_assign" [AMut "self"; AVal (ECast I32 "rhs")] ]
    [].

(* src/field/mod_e251_9.rs:208-210  AddAssign<i8>  F::add_assign(i8) *)
Definition f_add_assign_i8 : func := mkfunc ["self"; "rhs"] [
    (*209*) SCall [] "F::small_add_assign" [AMut "self"; AVal (ECast I32 "rhs")] ]
    [].

(* src/field/mod_e251_9.rs:216-220  Add<&F>  (&F)::add(&F) *)
Definition f_ref_add_ref : func := mkfunc ["self"; "a"] [
    (*217*) "out" <- "self";
    (*218*) SCall [] "F::add_assign(&F)" [AMut "out"; AVal "a"] ]
    [EVar "out"].

(* src/field/mod_e251_9.rs:226-228  Add<F>  F::add(F) *)
Definition f_add_val : func := mkfunc ["self"; "a"] [
    (*227*) SCall ["%1"] "(&F)::add(&F)" [AVal "self"; AVal "a"] ]
    [EVar "%1"].

(* src/field/mod_e251_9.rs:234-236  Add<&F>  i32::add(&F) *)
Definition f_i32_add_ref : func := mkfunc ["self"; "a"] [
    (*235*) SCall ["%1"] "F::small_add" [AVal "a"; AVal "self"] ]
    [EVar "%1"].

(* src/field/mod_e251_9.rs:242-244  Add<&F>  i16::add(&F) *)
Definition f_i16_add_ref : func := mkfunc ["self"; "a"] [
    (*243*) SCall ["%1"] "F::small_add" [AVal "a"; AVal (ECast I32 "self")] ]
    [EVar "%1"].

(* src/field/mod_e251_9.rs:250-252  Add<&F>  i8::add(&F) *)
Definition f_i8_add_ref : func := mkfunc ["self"; "a"] [
    (*251*) SCall ["%1"] "F::small_add" [AVal "a"; AVal (ECast I32 "self")] ]
    [EVar "%1"].

(* src/field/mod_e251_9.rs:258-260  Add<i32>  (&F)::add(i32) *)
Definition f_ref_add_i32 : func := mkfunc ["self"; "a"] [
    (*259*) SCall ["%1"] "F::small_add" [AVal "self"; AVal "a"] ]
    [EVar "%1"].

(* src/field/mod_e251_9.rs:266-268  Add<i16>  (&F)::add(i16) *)
Definition f_ref_add_i16 : func := mkfunc ["self"; "a"] [
    (*267*) SCall ["%1"] "F::small_add" [AVal "self"; AVal (ECast I32 "a")] ]
    [EVar "%1"].

(* src/field/mod_e251_9.rs:274-276  Add<i8>  (&F)::add(i8) *)
Definition f_ref_add_i8 : func := mkfunc ["self"; "a"] [
    (*275*) SCall ["%1"] "F::small_add" [AVal "self"; AVal (ECast I32 "a")] ]
    [EVar "%1"].

(* src/field/mod_e251_9.rs:282-284  Add<i32>  F::add(i32) *)
Definition f_add_i32 : func := mkfunc ["self"; "a"] [
    (*283*) SCall ["%1"] "(&F)::add(i32)" [AVal "self"; AVal "a"] ]
    [EVar "%1"].

(* src/field/mod_e251_9.rs:290-292  Add<i16>  F::add(i16) *)
Definition f_add_i16 : func := mkfunc ["self"; "a"] [
    (*291*) SCall ["%1"] "(&F)::add(i16)" [AVal "self"; AVal "a"] ]
    [EVar "%1"].

(* src/field/mod_e251_9.rs:298-300  Add<i8>  F::add(i8) *)
Definition f_add_i8 : func := mkfunc ["self"; "a"] [
    (*299*) SCall ["%1"] "(&F)::add(i8)" [AVal "self"; AVal "a"] ]
    [EVar "%1"].

(* src/field/mod_e251_9.rs:304-306  DivAssign<&F>  F::div_assign(&F) *)
Definition f_div_assign_ref : func := mkfunc ["self"; "rhs"] [
    (*305*) SCall ["%1"] "F::inverted" [AVal "rhs"];
    (*305*) SCall [] "F::mul_assign(&F)" [AMut "self"; AVal "%1"] ]
    [].

(* src/field/mod_e251_9.rs:310-312  DivAssign<F>  F::div_assign(F) *)
Definition f_div_assign_val : func := mkfunc ["self"; "rhs"] [
    (*311*) SCall [] "F::div_assign(&F)" [AMut "self"; AVal "rhs"] ]
    [].

(* src/field/mod_e251_9.rs:318-322  Div<&F>  (&F)::div(&F) *)
Definition f_ref_div_ref : func := mkfunc ["self"; "a"] [
    (*319*) "out" <- "self";
    (*320*) SCall [] "F::div_assign(&F)" [AMut "out"; AVal "a"] ]
    [EVar "out"].

(* src/field/mod_e251_9.rs:328-330  Div<F>  F::div(F) *)
Definition f_div_val : func := mkfunc ["self"; "a"] [
    (*329*) SCall ["%1"] "(&F)::div(&F)" [AVal "self"; AVal "a"] ]
    [EVar "%1"].

(* src/field/mod_e251_9.rs:334-363  SubAssign<&F>  F::sub_assign(&F) *)
Definition f_sub_assign_ref : func := mkfunc ["self"; "rhs"] [
    (*335*) "a0" <- "self".[#0];
    (*336*) "a1" <- "self".[#1];
    (*337*) "a2" <- "self".[#2];
    (*338*) "a3" <- "self".[#3];
    (*339*) "a4" <- ("self".[#4]) .& #0x0000000007ffffff;
    (*341*) "b0" <- "rhs".[#0];
    (*342*) "b1" <- "rhs".[#1];
    (*343*) "b2" <- "rhs".[#2];
    (*344*) "b3" <- "rhs".[#3];
    (*345*) "b4" <- ("rhs".[#4]) .& #0x0000000007ffffff;
    (*347*) "cin" <- (carry_out "self") .+ (carry_out "rhs");
    (*348*) "s0" <- ("a0" .- "b0") .+ ("cin" .* (EInt C_VAL));
    (*349*) "c0" <- "s0" .>> #56;
    (*350*) "s1" <- ("a1" .- "b1") .+ "c0";
    (*351*) "c1" <- "s1" .>> #56;
    (*352*) "s2" <- ("a2" .- "b2") .+ "c1";
    (*353*) "c2" <- "s2" .>> #56;
    (*354*) "s3" <- ("a3" .- "b3") .+ "c2";
    (*355*) "c3" <- "s3" .>> #56;
    (*356*) "s4" <- ("a4" .- "b4") .+ "c3";
    (*358*) SSet "self" #0 ("s0" .& #0x00ffffffffffffff);
    (*359*) SSet "self" #1 ("s1" .& #0x00ffffffffffffff);
    (*360*) SSet "self" #2 ("s2" .& #0x00ffffffffffffff);
    (*361*) SSet "self" #3 ("s3" .& #0x00ffffffffffffff);
    (*362*) SSet "self" #4 ("s4") ]
    [].

(* src/field/mod_e251_9.rs:367-369  SubAssign<F>  F::sub_assign(F) *)
Definition f_sub_assign_val : func := mkfunc ["self"; "rhs"] [
    (*368*) SCall [] "F::sub_assign(&F)" [AMut "self"; AVal "rhs"] ]
    [].

(* src/field/mod_e251_9.rs:373-375  SubAssign<i32>  F::sub_assign(i32) *)
Definition f_sub_assign_i32 : func := mkfunc ["self"; "rhs"] [
    (*374*) SCall [] "F::small_sub_assign" [AMut "self"; AVal "rhs"] ]
    [].

(* src/field/mod_e251_9.rs:379-381  SubAssign<i16>  F::sub_assign(i16) *)
Definition f_sub_assign_i16 : func := mkfunc ["self"; "rhs"] [
    (*380*) SCall [] "F::small_sub_assign" [AMut "self"; AVal (ECast I32 "rhs")] ]
    [].

(* src/field/mod_e251_9.rs:385-387  SubAssign<i8>  F::sub_assign(i8) *)
Definition f_sub_assign_i8 : func := mkfunc ["self"; "rhs"] [
    (*386*) SCall [] "F::small_sub_assign" [AMut "self"; AVal (ECast I32 "rhs")] ]
    [].

(* src/field/mod_e251_9.rs:393-395  Sub<i32>  F::sub(i32) *)
Definition f_sub_i32 : func := mkfunc ["self"; "a"] [
    (*394*) SCall ["%1"] "(&F)::sub(i32)" [AVal "self"; AVal "a"] ]
    [EVar "%1"].

(* src/field/mod_e251_9.rs:401-403  Sub<i16>  F::sub(i16) *)
Definition f_sub_i16 : func := mkfunc ["self"; "a"] [
    (*402*) SCall ["%1"] "(&F)::sub(i16)" [AVal "self"; AVal "a"] ]
    [EVar "%1"].

(* src/field/mod_e251_9.rs:409-411  Sub<i8>  F::sub(i8) *)
Definition f_sub_i8 : func := mkfunc ["self"; "a"] [
    (*410*) SCall ["%1"] "(&F)::sub(i8)" [AVal "self"; AVal "a"] ]
    [EVar "%1"].

(* src/field/mod_e251_9.rs:417-421  Sub<&F>  (&F)::sub(&F) *)
Definition f_ref_sub_ref : func := mkfunc ["self"; "a"] [
    (*418*) "out" <- "self";
    (*419*) SCall [] "F::sub_assign(&F)" [AMut "out"; AVal "a"] ]
    [EVar "out"].

(* src/field/mod_e251_9.rs:427-429  Sub<F>  F::sub(F) *)
Definition f_sub_val : func := mkfunc ["self"; "a"] [
    (*428*) SCall ["%1"] "(&F)::sub(&F)" [AVal "self"; AVal "a"] ]
    [EVar "%1"].

(* src/field/mod_e251_9.rs:435-437  Sub<i32>  (&F)::sub(i32) *)
Definition f_ref_sub_i32 : func := mkfunc ["self"; "a"] [
    (*436*) SCall ["%1"] "F::small_sub" [AVal "self"; AVal "a"] ]
    [EVar "%1"].

(* src/field/mod_e251_9.rs:443-445  Sub<i16>  (&F)::sub(i16) *)
Definition f_ref_sub_i16 : func := mkfunc ["self"; "a"] [
    (*444*) SCall ["%1"] "F::small_sub" [AVal "self"; AVal (ECast I32 "a")] ]
    [EVar "%1"].

(* src/field/mod_e251_9.rs:451-453  Sub<i8>  (&F)::sub(i8) *)
Definition f_ref_sub_i8 : func := mkfunc ["self"; "a"] [
    (*452*) SCall ["%1"] "F::small_sub" [AVal "self"; AVal (ECast I32 "a")] ]
    [EVar "%1"].

(* src/field/mod_e251_9.rs:457-459  MulAssign<i32>  F::mul_assign(i32) *)
Definition f_mul_assign_i32 : func := mkfunc ["self"; "rhs"] [
    (*458*) SCall [] "F::small_mul_assign" [AMut "self"; AVal "rhs"] ]
    [].

(* src/field/mod_e251_9.rs:463-465  MulAssign<i16>  F::mul_assign(i16) *)
Definition f_mul_assign_i16 : func := mkfunc ["self"; "rhs"] [
    (*464*) SCall [] "F::small_mul_assign" [AMut "self"; AVal (ECast I32 "rhs")] ]
    [].

(* src/field/mod_e251_9.rs:469-471  MulAssign<i8>  F::mul_assign(i8) *)
Definition f_mul_assign_i8 : func := mkfunc ["self"; "rhs"] [
    (*470*) SCall [] "F::small_mul_assign" [AMut "self"; AVal (ECast I32 "rhs")] ]
    [].

(* src/field/mod_e251_9.rs:475-686  MulAssign<&F>  F::mul_assign(&F) *)
Definition f_mul_assign_ref : func := mkfunc ["self"; "rhs"] [
    (*476*) "a0" <- ("self".[#0]) .& #0x0fffffff;
    (*477*) "a1" <- ("self".[#0]) .>> #28;
    (*478*) "a2" <- ("self".[#1]) .& #0x0fffffff;
    (*479*) "a3" <- ("self".[#1]) .>> #28;
    (*480*) "a4" <- ("self".[#2]) .& #0x0fffffff;
    (*481*) "a5" <- ("self".[#2]) .>> #28;
    (*482*) "a6" <- ("self".[#3]) .& #0x0fffffff;
    (*483*) "a7" <- ("self".[#3]) .>> #28;
    (*484*) "a8" <- "self".[#4];
    (*486*) "b0" <- ("rhs".[#0]) .& #0x0fffffff;
    (*487*) "b1" <- ("rhs".[#0]) .>> #28;
    (*488*) "b2" <- ("rhs".[#1]) .& #0x0fffffff;
    (*489*) "b3" <- ("rhs".[#1]) .>> #28;
    (*490*) "b4" <- ("rhs".[#2]) .& #0x0fffffff;
    (*491*) "b5" <- ("rhs".[#2]) .>> #28;
    (*492*) "b6" <- ("rhs".[#3]) .& #0x0fffffff;
    (*493*) "b7" <- ("rhs".[#3]) .>> #28;
    (*494*) "b8" <- "rhs".[#4];
    (*497*) "m_0_0" <- "a0" .* "b0";
    (*498*) "m_0_1" <- "a0" .* "b1";
    (*499*) "m_0_2" <- "a0" .* "b2";
    (*500*) "m_0_3" <- "a0" .* "b3";
    (*501*) "m_0_4" <- "a0" .* "b4";
    (*502*) "m_0_5" <- "a0" .* "b5";
    (*503*) "m_0_6" <- "a0" .* "b6";
    (*504*) "m_0_7" <- "a0" .* "b7";
    (*505*) "m_0_8" <- "a0" .* "b8";
    (*506*) "m_1_0" <- "a1" .* "b0";
    (*507*) "m_1_1" <- "a1" .* "b1";
    (*508*) "m_1_2" <- "a1" .* "b2";
    (*509*) "m_1_3" <- "a1" .* "b3";
    (*510*) "m_1_4" <- "a1" .* "b4";
    (*511*) "m_1_5" <- "a1" .* "b5";
    (*512*) "m_1_6" <- "a1" .* "b6";
    (*513*) "m_1_7" <- "a1" .* "b7";
    (*514*) "m_1_8" <- "a1" .* "b8";
    (*515*) "m_2_0" <- "a2" .* "b0";
    (*516*) "m_2_1" <- "a2" .* "b1";
    (*517*) "m_2_2" <- "a2" .* "b2";
    (*518*) "m_2_3" <- "a2" .* "b3";
    (*519*) "m_2_4" <- "a2" .* "b4";
    (*520*) "m_2_5" <- "a2" .* "b5";
    (*521*) "m_2_6" <- "a2" .* "b6";
    (*522*) "m_2_7" <- "a2" .* "b7";
    (*523*) "m_2_8" <- "a2" .* "b8";
    (*524*) "m_3_0" <- "a3" .* "b0";
    (*525*) "m_3_1" <- "a3" .* "b1";
    (*526*) "m_3_2" <- "a3" .* "b2";
    (*527*) "m_3_3" <- "a3" .* "b3";
    (*528*) "m_3_4" <- "a3" .* "b4";
    (*529*) "m_3_5" <- "a3" .* "b5";
    (*530*) "m_3_6" <- "a3" .* "b6";
    (*531*) "m_3_7" <- "a3" .* "b7";
    (*532*) "m_3_8" <- "a3" .* "b8";
    (*533*) "m_4_0" <- "a4" .* "b0";
    (*534*) "m_4_1" <- "a4" .* "b1";
    (*535*) "m_4_2" <- "a4" .* "b2";
    (*536*) "m_4_3" <- "a4" .* "b3";
    (*537*) "m_4_4" <- "a4" .* "b4";
    (*538*) "m_4_5" <- "a4" .* "b5";
    (*539*) "m_4_6" <- "a4" .* "b6";
    (*540*) "m_4_7" <- "a4" .* "b7";
    (*541*) "m_4_8" <- "a4" .* "b8";
    (*542*) "m_5_0" <- "a5" .* "b0";
    (*543*) "m_5_1" <- "a5" .* "b1";
    (*544*) "m_5_2" <- "a5" .* "b2";
    (*545*) "m_5_3" <- "a5" .* "b3";
    (*546*) "m_5_4" <- "a5" .* "b4";
    (*547*) "m_5_5" <- "a5" .* "b5";
    (*548*) "m_5_6" <- "a5" .* "b6";
    (*549*) "m_5_7" <- "a5" .* "b7";
    (*550*) "m_5_8" <- "a5" .* "b8";
    (*551*) "m_6_0" <- "a6" .* "b0";
    (*552*) "m_6_1" <- "a6" .* "b1";
    (*553*) "m_6_2" <- "a6" .* "b2";
    (*554*) "m_6_3" <- "a6" .* "b3";
    (*555*) "m_6_4" <- "a6" .* "b4";
    (*556*) "m_6_5" <- "a6" .* "b5";
    (*557*) "m_6_6" <- "a6" .* "b6";
    (*558*) "m_6_7" <- "a6" .* "b7";
    (*559*) "m_6_8" <- "a6" .* "b8";
    (*560*) "m_7_0" <- "a7" .* "b0";
    (*561*) "m_7_1" <- "a7" .* "b1";
    (*562*) "m_7_2" <- "a7" .* "b2";
    (*563*) "m_7_3" <- "a7" .* "b3";
    (*564*) "m_7_4" <- "a7" .* "b4";
    (*565*) "m_7_5" <- "a7" .* "b5";
    (*566*) "m_7_6" <- "a7" .* "b6";
    (*567*) "m_7_7" <- "a7" .* "b7";
    (*568*) "m_7_8" <- "a7" .* "b8";
    (*569*) "m_8_0" <- "a8" .* "b0";
    (*570*) "m_8_1" <- "a8" .* "b1";
    (*571*) "m_8_2" <- "a8" .* "b2";
    (*572*) "m_8_3" <- "a8" .* "b3";
    (*573*) "m_8_4" <- "a8" .* "b4";
    (*574*) "m_8_5" <- "a8" .* "b5";
    (*575*) "m_8_6" <- "a8" .* "b6";
    (*576*) "m_8_7" <- "a8" .* "b7";
    (*577*) "m_8_8" <- "a8" .* "b8";
    (*580*) "d0" <- ("m_0_0" .+ (("m_0_1" .& #0x0fffffff) .<< #28)) .+ (("m_1_0" .& #0x0fffffff) .<< #28);
    (*582*) "c0" <- "d0" .>> #56;
    (*583*) "d1" <- ((((((((("m_0_1" .>> #28) .+ "m_0_2") .+ (("m_0_3" .& #0x0fffffff) .<< #28)) .+ ("m_1_0" .>> #28)) .+ "m_1_1") .+ (("m_1_2" .& #0x0fffffff) .<< #28)) .+ "m_2_0") .+ (("m_2_1" .& #0x0fffffff) .<< #28)) .+ (("m_3_0" .& #0x0fffffff) .<< #28)) .+ "c0";
    (*587*) "c1" <- "d1" .>> #56;
    (*588*) "d2" <- ((((((((((((((("m_0_3" .>> #28) .+ "m_0_4") .+ (("m_0_5" .& #0x0fffffff) .<< #28)) .+ ("m_1_2" .>> #28)) .+ "m_1_3") .+ (("m_1_4" .& #0x0fffffff) .<< #28)) .+ ("m_2_1" .>> #28)) .+ "m_2_2") .+ (("m_2_3" .& #0x0fffffff) .<< #28)) .+ ("m_3_0" .>> #28)) .+ "m_3_1") .+ (("m_3_2" .& #0x0fffffff) .<< #28)) .+ "m_4_0") .+ (("m_4_1" .& #0x0fffffff) .<< #28)) .+ (("m_5_0" .& #0x0fffffff) .<< #28)) .+ "c1";
    (*594*) "c2" <- "d2" .>> #56;
    (*595*) "d3" <- ((((((((((((((((((((("m_0_5" .>> #28) .+ "m_0_6") .+ (("m_0_7" .& #0x0fffffff) .<< #28)) .+ ("m_1_4" .>> #28)) .+ "m_1_5") .+ (("m_1_6" .& #0x0fffffff) .<< #28)) .+ ("m_2_3" .>> #28)) .+ "m_2_4") .+ (("m_2_5" .& #0x0fffffff) .<< #28)) .+ ("m_3_2" .>> #28)) .+ "m_3_3") .+ (("m_3_4" .& #0x0fffffff) .<< #28)) .+ ("m_4_1" .>> #28)) .+ "m_4_2") .+ (("m_4_3" .& #0x0fffffff) .<< #28)) .+ ("m_5_0" .>> #28)) .+ "m_5_1") .+ (("m_5_2" .& #0x0fffffff) .<< #28)) .+ "m_6_0") .+ (("m_6_1" .& #0x0fffffff) .<< #28)) .+ (("m_7_0" .& #0x0fffffff) .<< #28)) .+ "c2";
    (*603*) "c3" <- "d3" .>> #56;
    (*604*) "d4" <- ((((((((((((((((((((((((("m_0_7" .>> #28) .+ "m_0_8") .+ ("m_1_6" .>> #28)) .+ "m_1_7") .+ (("m_1_8" .& #0x0fffffff) .<< #28)) .+ ("m_2_5" .>> #28)) .+ "m_2_6") .+ (("m_2_7" .& #0x0fffffff) .<< #28)) .+ ("m_3_4" .>> #28)) .+ "m_3_5") .+ (("m_3_6" .& #0x0fffffff) .<< #28)) .+ ("m_4_3" .>> #28)) .+ "m_4_4") .+ (("m_4_5" .& #0x0fffffff) .<< #28)) .+ ("m_5_2" .>> #28)) .+ "m_5_3") .+ (("m_5_4" .& #0x0fffffff) .<< #28)) .+ ("m_6_1" .>> #28)) .+ "m_6_2") .+ (("m_6_3" .& #0x0fffffff) .<< #28)) .+ ("m_7_0" .>> #28)) .+ "m_7_1") .+ (("m_7_2" .& #0x0fffffff) .<< #28)) .+ "m_8_0") .+ (("m_8_1" .& #0x0fffffff) .<< #28)) .+ "c3";
    (*614*) "c4" <- "d4" .>> #56;
    (*615*) "d5" <- ((((((((((((((((((((("m_1_8" .>> #28) .+ ("m_2_7" .>> #28)) .+ "m_2_8") .+ ("m_3_6" .>> #28)) .+ "m_3_7") .+ (("m_3_8" .& #0x0fffffff) .<< #28)) .+ ("m_4_5" .>> #28)) .+ "m_4_6") .+ (("m_4_7" .& #0x0fffffff) .<< #28)) .+ ("m_5_4" .>> #28)) .+ "m_5_5") .+ (("m_5_6" .& #0x0fffffff) .<< #28)) .+ ("m_6_3" .>> #28)) .+ "m_6_4") .+ (("m_6_5" .& #0x0fffffff) .<< #28)) .+ ("m_7_2" .>> #28)) .+ "m_7_3") .+ (("m_7_4" .& #0x0fffffff) .<< #28)) .+ ("m_8_1" .>> #28)) .+ "m_8_2") .+ (("m_8_3" .& #0x0fffffff) .<< #28)) .+ "c4";
    (*624*) "c5" <- "d5" .>> #56;
    (*625*) "d6" <- ((((((((((((((("m_3_8" .>> #28) .+ ("m_4_7" .>> #28)) .+ "m_4_8") .+ ("m_5_6" .>> #28)) .+ "m_5_7") .+ (("m_5_8" .& #0x0fffffff) .<< #28)) .+ ("m_6_5" .>> #28)) .+ "m_6_6") .+ (("m_6_7" .& #0x0fffffff) .<< #28)) .+ ("m_7_4" .>> #28)) .+ "m_7_5") .+ (("m_7_6" .& #0x0fffffff) .<< #28)) .+ ("m_8_3" .>> #28)) .+ "m_8_4") .+ (("m_8_5" .& #0x0fffffff) .<< #28)) .+ "c5";
    (*632*) "c6" <- "d6" .>> #56;
    (*633*) "d7" <- ((((((((("m_5_8" .>> #28) .+ ("m_6_7" .>> #28)) .+ "m_6_8") .+ ("m_7_6" .>> #28)) .+ "m_7_7") .+ (("m_7_8" .& #0x0fffffff) .<< #28)) .+ ("m_8_5" .>> #28)) .+ "m_8_6") .+ (("m_8_7" .& #0x0fffffff) .<< #28)) .+ "c6";
    (*638*) "c7" <- "d7" .>> #56;
    (*639*) "d8" <- ((("m_7_8" .>> #28) .+ ("m_8_7" .>> #28)) .+ "m_8_8") .+ "c7";
    (*645*) "l0_0" <- "d0" .& #0x00ffffffffffffff;
    (*646*) "l1_0" <- "d1" .& #0x00ffffffffffffff;
    (*647*) "l2_0" <- "d2" .& #0x00ffffffffffffff;
    (*648*) "l3_0" <- "d3" .& #0x00ffffffffffffff;
    (*649*) "l4_0" <- "d4" .& #0x0000000007ffffff;
    (*652*) "h0_0" <- (("d4" .& #0x00ffffffffffffff) .>> #27) .| (("d5" .& #0x0000000007ffffff) .<< #29);
    (*654*) "h1_0" <- (("d5" .& #0x00ffffffffffffff) .>> #27) .| (("d6" .& #0x0000000007ffffff) .<< #29);
    (*656*) "h2_0" <- (("d6" .& #0x00ffffffffffffff) .>> #27) .| (("d7" .& #0x0000000007ffffff) .<< #29);
    (*658*) "h3_0" <- (("d7" .& #0x00ffffffffffffff) .>> #27) .| (("d8" .& #0x0000000007ffffff) .<< #29);
    (*660*) "h4_0" <- ("d8" .& #0x00ffffffffffffff) .>> #27;
    (*663*) "hc0_0" <- "h0_0" .* (EInt C_VAL);
    (*664*) "hc1_0" <- "h1_0" .* (EInt C_VAL);
    (*665*) "hc2_0" <- "h2_0" .* (EInt C_VAL);
    (*666*) "hc3_0" <- "h3_0" .* (EInt C_VAL);
    (*667*) "hc4_0" <- "h4_0" .* (EInt C_VAL);
    (*670*) "kin_0" <- "hc4_0" .>> #27;
    (*671*) "s0_0" <- ("l0_0" .+ "hc0_0") .+ ("kin_0" .* (EInt C_VAL));
    (*672*) "k0_0" <- "s0_0" .>> #56;
    (*673*) "s1_0" <- ("l1_0" .+ "hc1_0") .+ "k0_0";
    (*674*) "k1_0" <- "s1_0" .>> #56;
    (*675*) "s2_0" <- ("l2_0" .+ "hc2_0") .+ "k1_0";
    (*676*) "k2_0" <- "s2_0" .>> #56;
    (*677*) "s3_0" <- ("l3_0" .+ "hc3_0") .+ "k2_0";
    (*678*) "k3_0" <- "s3_0" .>> #56;
    (*679*) "s4_0" <- ("l4_0" .+ ("hc4_0" .& #0x0000000007ffffff)) .+ "k3_0";
    (*681*) SSet "self" #0 ("s0_0" .& #0x00ffffffffffffff);
    (*682*) SSet "self" #1 ("s1_0" .& #0x00ffffffffffffff);
    (*683*) SSet "self" #2 ("s2_0" .& #0x00ffffffffffffff);
    (*684*) SSet "self" #3 ("s3_0" .& #0x00ffffffffffffff);
    (*685*) SSet "self" #4 ("s4_0") ]
    [].

(* src/field/mod_e251_9.rs:690-692  MulAssign<F>  F::mul_assign(F) *)
Definition f_mul_assign_val : func := mkfunc ["self"; "rhs"] [
    (*691*) SCall [] "F::mul_assign(&F)" [AMut "self"; AVal "rhs"] ]
    [].

(* src/field/mod_e251_9.rs:698-700  Mul<&F>  i32::mul(&F) *)
Definition f_i32_mul_ref : func := mkfunc ["self"; "a"] [
    (*699*) SCall ["%1"] "F::small_mul" [AVal "a"; AVal "self"] ]
    [EVar "%1"].

(* src/field/mod_e251_9.rs:706-708  Mul<&F>  i16::mul(&F) *)
Definition f_i16_mul_ref : func := mkfunc ["self"; "a"] [
    (*707*) SCall ["%1"] "F::small_mul" [AVal "a"; AVal (ECast I32 "self")] ]
    [EVar "%1"].

(* src/field/mod_e251_9.rs:714-716  Mul<&F>  i8::mul(&F) *)
Definition f_i8_mul_ref : func := mkfunc ["self"; "a"] [
    (*715*) SCall ["%1"] "F::small_mul" [AVal "a"; AVal (ECast I32 "self")] ]
    [EVar "%1"].

(* src/field/mod_e251_9.rs:722-724  Mul<i32>  (&F)::mul(i32) *)
Definition f_ref_mul_i32 : func := mkfunc ["self"; "a"] [
    (*723*) SCall ["%1"] "F::small_mul" [AVal "self"; AVal "a"] ]
    [EVar "%1"].

(* src/field/mod_e251_9.rs:730-732  Mul<i16>  (&F)::mul(i16) *)
Definition f_ref_mul_i16 : func := mkfunc ["self"; "a"] [
    (*731*) SCall ["%1"] "F::small_mul" [AVal "self"; AVal (ECast I32 "a")] ]
    [EVar "%1"].

(* src/field/mod_e251_9.rs:738-740  Mul<i8>  (&F)::mul(i8) *)
Definition f_ref_mul_i8 : func := mkfunc ["self"; "a"] [
    (*739*) SCall ["%1"] "F::small_mul" [AVal "self"; AVal (ECast I32 "a")] ]
    [EVar "%1"].

(* src/field/mod_e251_9.rs:746-748  Mul<i32>  F::mul(i32) *)
Definition f_mul_i32 : func := mkfunc ["self"; "a"] [
    (*747*) SCall ["%1"] "(&F)::mul(i32)" [AVal "self"; AVal "a"] ]
    [EVar "%1"].

(* src/field/mod_e251_9.rs:754-756  Mul<i16>  F::mul(i16) *)
Definition f_mul_i16 : func := mkfunc ["self"; "a"] [
    (*755*) SCall ["%1"] "(&F)::mul(i16)" [AVal "self"; AVal "a"] ]
    [EVar "%1"].

(* src/field/mod_e251_9.rs:762-764  Mul<i8>  F::mul(i8) *)
Definition f_mul_i8 : func := mkfunc ["self"; "a"] [
    (*763*) SCall ["%1"] "(&F)::mul(i8)" [AVal "self"; AVal "a"] ]
    [EVar "%1"].

(* src/field/mod_e251_9.rs:770-774  Mul<&F>  (&F)::mul(&F) *)
Definition f_ref_mul_ref : func := mkfunc ["self"; "a"] [
    (*771*) "out" <- "self";
    (*772*) SCall [] "F::mul_assign(&F)" [AMut "out"; AVal "a"] ]
    [EVar "out"].

(* src/field/mod_e251_9.rs:780-782  Mul<F>  F::mul(F) *)
Definition f_mul_val : func := mkfunc ["self"; "a"] [
    (*781*) SCall ["%1"] "(&F)::mul(&F)" [AVal "self"; AVal "a"] ]
    [EVar "%1"].

(* src/field/mod_e251_9.rs:786-794  Rand  F::rand *)
Definition f_rand : func := mkfunc ["rng"] [
    (*787*) "out" <- ERep #0 5;
    (*789*) SFor "i" #0 #5 [
      (*790*) SGenRange "%1" "rng" #0 ((ELit MODULUS).["i"]);
      (*790*) SSet "out" "i" ("%1") ] ]
    [EVar "out"].

(* src/field/mod_e251_9.rs:798-831  Pack  F::unpack *)
Definition f_unpack : func := mkfunc ["self"; "bytes"] [
    (*799*) SSet "self" #0 ((((((((ECast I64 ("bytes".[#0])) .& #0x00000000000000ff) .| (((ECast I64 ("bytes".[#1])) .<< #8) .& #0x000000000000ff00)) .| (((ECast I64 ("bytes".[#2])) .<< #16) .& #0x0000000000ff0000)) .| (((ECast I64 ("bytes".[#3])) .<< #24) .& #0x00000000ff000000)) .| (((ECast I64 ("bytes".[#4])) .<< #32) .& #0x000000ff00000000)) .| (((ECast I64 ("bytes".[#5])) .<< #40) .& #0x0000ff0000000000)) .| (((ECast I64 ("bytes".[#6])) .<< #48) .& #0x00ff000000000000));
    (*806*) SSet "self" #1 ((((((((ECast I64 ("bytes".[#7])) .& #0x00000000000000ff) .| (((ECast I64 ("bytes".[#8])) .<< #8) .& #0x000000000000ff00)) .| (((ECast I64 ("bytes".[#9])) .<< #16) .& #0x0000000000ff0000)) .| (((ECast I64 ("bytes".[#10])) .<< #24) .& #0x00000000ff000000)) .| (((ECast I64 ("bytes".[#11])) .<< #32) .& #0x000000ff00000000)) .| (((ECast I64 ("bytes".[#12])) .<< #40) .& #0x0000ff0000000000)) .| (((ECast I64 ("bytes".[#13])) .<< #48) .& #0x00ff000000000000));
    (*813*) SSet "self" #2 ((((((((ECast I64 ("bytes".[#14])) .& #0x00000000000000ff) .| (((ECast I64 ("bytes".[#15])) .<< #8) .& #0x000000000000ff00)) .| (((ECast I64 ("bytes".[#16])) .<< #16) .& #0x0000000000ff0000)) .| (((ECast I64 ("bytes".[#17])) .<< #24) .& #0x00000000ff000000)) .| (((ECast I64 ("bytes".[#18])) .<< #32) .& #0x000000ff00000000)) .| (((ECast I64 ("bytes".[#19])) .<< #40) .& #0x0000ff0000000000)) .| (((ECast I64 ("bytes".[#20])) .<< #48) .& #0x00ff000000000000));
    (*820*) SSet "self" #3 ((((((((ECast I64 ("bytes".[#21])) .& #0x00000000000000ff) .| (((ECast I64 ("bytes".[#22])) .<< #8) .& #0x000000000000ff00)) .| (((ECast I64 ("bytes".[#23])) .<< #16) .& #0x0000000000ff0000)) .| (((ECast I64 ("bytes".[#24])) .<< #24) .& #0x00000000ff000000)) .| (((ECast I64 ("bytes".[#25])) .<< #32) .& #0x000000ff00000000)) .| (((ECast I64 ("bytes".[#26])) .<< #40) .& #0x0000ff0000000000)) .| (((ECast I64 ("bytes".[#27])) .<< #48) .& #0x00ff000000000000));
    (*827*) SSet "self" #4 (((((ECast I64 ("bytes".[#28])) .& #0x00000000000000ff) .| (((ECast I64 ("bytes".[#29])) .<< #8) .& #0x000000000000ff00)) .| (((ECast I64 ("bytes".[#30])) .<< #16) .& #0x0000000000ff0000)) .| (((ECast I64 ("bytes".[#31])) .<< #24) .& #0x0000000007000000)) ]
    [].

(* src/field/mod_e251_9.rs:833-837  Pack  F::unpacked *)
Definition f_unpacked : func := mkfunc ["bytes"] [
    (*834*) "out" <- ELit ZERO;
    (*835*) SCall [] "F::unpack" [AMut "out"; AVal "bytes"] ]
    [EVar "out"].

(* src/field/mod_e251_9.rs:839-842  Pack  F::pack *)
Definition f_pack : func := mkfunc ["self"; "bytes"] [
    (*840*) SCall [] "F::normalize" [AMut "self"];
    (*841*) SCall [] "F::pack_normalized" [AVal "self"; AMut "bytes"] ]
    [].

(* src/field/mod_e251_9.rs:844-877  Pack  F::pack_normalized *)
Definition f_pack_normalized : func := mkfunc ["self"; "bytes"] [
    (*845*) SSet "bytes" #0 (ECast U8 (("self".[#0]) .& #255));
    (*846*) SSet "bytes" #1 (ECast U8 ((("self".[#0]) .>> #8) .& #255));
    (*847*) SSet "bytes" #2 (ECast U8 ((("self".[#0]) .>> #16) .& #255));
    (*848*) SSet "bytes" #3 (ECast U8 ((("self".[#0]) .>> #24) .& #255));
    (*849*) SSet "bytes" #4 (ECast U8 ((("self".[#0]) .>> #32) .& #255));
    (*850*) SSet "bytes" #5 (ECast U8 ((("self".[#0]) .>> #40) .& #255));
    (*851*) SSet "bytes" #6 (ECast U8 ((("self".[#0]) .>> #48) .& #255));
    (*852*) SSet "bytes" #7 (ECast U8 (("self".[#1]) .& #255));
    (*853*) SSet "bytes" #8 (ECast U8 ((("self".[#1]) .>> #8) .& #255));
    (*854*) SSet "bytes" #9 (ECast U8 ((("self".[#1]) .>> #16) .& #255));
    (*855*) SSet "bytes" #10 (ECast U8 ((("self".[#1]) .>> #24) .& #255));
    (*856*) SSet "bytes" #11 (ECast U8 ((("self".[#1]) .>> #32) .& #255));
    (*857*) SSet "bytes" #12 (ECast U8 ((("self".[#1]) .>> #40) .& #255));
    (*858*) SSet "bytes" #13 (ECast U8 ((("self".[#1]) .>> #48) .& #255));
    (*859*) SSet "bytes" #14 (ECast U8 (("self".[#2]) .& #255));
    (*860*) SSet "bytes" #15 (ECast U8 ((("self".[#2]) .>> #8) .& #255));
    (*861*) SSet "bytes" #16 (ECast U8 ((("self".[#2]) .>> #16) .& #255));
    (*862*) SSet "bytes" #17 (ECast U8 ((("self".[#2]) .>> #24) .& #255));
    (*863*) SSet "bytes" #18 (ECast U8 ((("self".[#2]) .>> #32) .& #255));
    (*864*) SSet "bytes" #19 (ECast U8 ((("self".[#2]) .>> #40) .& #255));
    (*865*) SSet "bytes" #20 (ECast U8 ((("self".[#2]) .>> #48) .& #255));
    (*866*) SSet "bytes" #21 (ECast U8 (("self".[#3]) .& #255));
    (*867*) SSet "bytes" #22 (ECast U8 ((("self".[#3]) .>> #8) .& #255));
    (*868*) SSet "bytes" #23 (ECast U8 ((("self".[#3]) .>> #16) .& #255));
    (*869*) SSet "bytes" #24 (ECast U8 ((("self".[#3]) .>> #24) .& #255));
    (*870*) SSet "bytes" #25 (ECast U8 ((("self".[#3]) .>> #32) .& #255));
    (*871*) SSet "bytes" #26 (ECast U8 ((("self".[#3]) .>> #40) .& #255));
    (*872*) SSet "bytes" #27 (ECast U8 ((("self".[#3]) .>> #48) .& #255));
    (*873*) SSet "bytes" #28 (ECast U8 (("self".[#4]) .& #255));
    (*874*) SSet "bytes" #29 (ECast U8 ((("self".[#4]) .>> #8) .& #255));
    (*875*) SSet "bytes" #30 (ECast U8 ((("self".[#4]) .>> #16) .& #255));
    (*876*) SSet "bytes" #31 (ECast U8 ((("self".[#4]) .>> #24) .& #7)) ]
    [].

(* src/field/mod_e251_9.rs:879-881  Pack  F::nbytes *)
Definition f_nbytes : func := mkfunc [] [
 ]
    [#32].

(* src/field/mod_e251_9.rs:885-889  Normalize  F::normalize *)
Definition f_normalize : func := mkfunc ["self"] [
    (*886*) SCall ["plusc"] "(&F)::add(i32)" [AVal "self"; AVal (ECast I32 (EInt C_VAL))];
    (*887*) SCall ["offset"] "(&F)::mul(i32)" [AVal (ELit MODULUS); AVal (ECast I32 (carry_out "plusc"))];
    (*888*) SCall [] "F::sub_assign(&F)" [AMut "self"; AVal "offset"] ]
    [].

(* src/field/mod_e251_9.rs:893-905  NormalizeEq  F::normalize_self_eq *)
Definition f_normalize_self_eq : func := mkfunc ["self"; "other"] [
    (*894*) "are_equal" <- #1;
    (*896*) SCall [] "F::normalize" [AMut "self"];
    (*898*) "are_equal" <- "are_equal" .& (EEq ("self".[#0]) ("other".[#0]));
    (*899*) "are_equal" <- "are_equal" .& (EEq ("self".[#1]) ("other".[#1]));
    (*900*) "are_equal" <- "are_equal" .& (EEq ("self".[#2]) ("other".[#2]));
    (*901*) "are_equal" <- "are_equal" .& (EEq ("self".[#3]) ("other".[#3]));
    (*902*) "are_equal" <- "are_equal" .& (EEq ("self".[#4]) ("other".[#4])) ]
    [EVar "are_equal"].

(* src/field/mod_e251_9.rs:907-910  NormalizeEq  F::normalize_eq *)
Definition f_normalize_eq : func := mkfunc ["self"; "other"] [
    (*908*) SCall [] "F::normalize" [AMut "other"];
    (*909*) SCall ["%1"] "F::normalize_self_eq" [AMut "self"; AVal "other"] ]
    [EVar "%1"].

(* src/field/mod_e251_9.rs:914-929  PrimeFieldMask  Mask::fill *)
Definition f_Mask_fill : func := mkfunc ["self"; "bit"] [
    (*915*) "mask" <- ECast I64 "bit";
    (*917*) "mask" <- "mask" .| ("mask" .<< #1);
    (*918*) "mask" <- "mask" .| ("mask" .<< #2);
    (*919*) "mask" <- "mask" .| ("mask" .<< #4);
    (*920*) "mask" <- "mask" .| ("mask" .<< #8);
    (*921*) "mask" <- "mask" .| ("mask" .<< #16);
    (*922*) "mask" <- "mask" .| ("mask" .<< #32);
    (*924*) SSet "self" #0 ("mask");
    (*925*) SSet "self" #1 ("mask");
    (*926*) SSet "self" #2 ("mask");
    (*927*) SSet "self" #3 ("mask");
    (*928*) SSet "self" #4 ("mask") ]
    [].

(* src/field/mod_e251_9.rs:931-942  PrimeFieldMask  Mask::filled *)
Definition f_Mask_filled : func := mkfunc ["bit"] [
    (*932*) "mask" <- ECast I64 "bit";
    (*934*) "mask" <- "mask" .| ("mask" .<< #1);
    (*935*) "mask" <- "mask" .| ("mask" .<< #2);
    (*936*) "mask" <- "mask" .| ("mask" .<< #4);
    (*937*) "mask" <- "mask" .| ("mask" .<< #8);
    (*938*) "mask" <- "mask" .| ("mask" .<< #16);
    (*939*) "mask" <- "mask" .| ("mask" .<< #32) ]
    [ERep "mask" 5].

(* src/field/mod_e251_9.rs:946-961  PrimeField  F::fill *)
Definition f_fill : func := mkfunc ["self"; "bit"] [
    (*947*) "mask" <- ECast I64 "bit";
    (*949*) "mask" <- "mask" .| ("mask" .<< #1);
    (*950*) "mask" <- "mask" .| ("mask" .<< #2);
    (*951*) "mask" <- "mask" .| ("mask" .<< #4);
    (*952*) "mask" <- "mask" .| ("mask" .<< #8);
    (*953*) "mask" <- "mask" .| ("mask" .<< #16);
    (*954*) "mask" <- "mask" .| ("mask" .<< #32);
    (*956*) SSet "self" #0 ("mask");
    (*957*) SSet "self" #1 ("mask");
    (*958*) SSet "self" #2 ("mask");
    (*959*) SSet "self" #3 ("mask");
    (*960*) SSet "self" #4 ("mask") ]
    [].

(* src/field/mod_e251_9.rs:963-974  PrimeField  F::filled *)
Definition f_filled : func := mkfunc ["bit"] [
    (*964*) "mask" <- ECast I64 "bit";
    (*966*) "mask" <- "mask" .| ("mask" .<< #1);
    (*967*) "mask" <- "mask" .| ("mask" .<< #2);
    (*968*) "mask" <- "mask" .| ("mask" .<< #4);
    (*969*) "mask" <- "mask" .| ("mask" .<< #8);
    (*970*) "mask" <- "mask" .| ("mask" .<< #16);
    (*971*) "mask" <- "mask" .| ("mask" .<< #32) ]
    [ERep "mask" 5].

(* src/field/mod_e251_9.rs:976-976  PrimeField  F::nbits *)
Definition f_nbits : func := mkfunc [] [
 ]
    [#251].

(* src/field/mod_e251_9.rs:978-983  PrimeField  F::bit_normalized *)
Definition f_bit_normalized : func := mkfunc ["self"; "idx"] [
    (*979*) "byte" <- EUDiv "idx" #56;
    (*980*) "bit" <- EURem "idx" #56 ]
    [EEq ((("self".["byte"]) .>> "bit") .& #0x1) #0x1].

(* src/field/mod_e251_9.rs:985-988  PrimeField  F::bit *)
Definition f_bit : func := mkfunc ["self"; "idx"] [
    (*986*) SCall [] "F::normalize" [AMut "self"];
    (*987*) SCall ["%1"] "F::bit_normalized" [AVal "self"; AVal "idx"] ]
    [EVar "%1"].

(* src/field/mod_e251_9.rs:990-993  PrimeField  F::normalize_bitand *)
Definition f_normalize_bitand : func := mkfunc ["self"; "rhs"] [
    (*991*) SCall [] "F::normalize" [AMut "rhs"];
    (*992*) SCall [] "F::normalize_self_bitand" [AMut "self"; AVal "rhs"] ]
    [].

(* src/field/mod_e251_9.rs:995-998  PrimeField  F::normalize_self_bitand *)
Definition f_normalize_self_bitand : func := mkfunc ["self"; "rhs"] [
    (*996*) SCall [] "F::normalize" [AMut "self"];
    (*997*) SCall [] "F::normalized_bitand" [AMut "self"; AVal "rhs"] ]
    [].

(* src/field/mod_e251_9.rs:1000-1006  PrimeField  F::normalized_bitand *)
Definition f_normalized_bitand : func := mkfunc ["self"; "rhs"] [
    (*1001*) SSet "self" #0 (("self".[#0]) .& ("rhs".[#0]));
    (*1002*) SSet "self" #1 (("self".[#1]) .& ("rhs".[#1]));
    (*1003*) SSet "self" #2 (("self".[#2]) .& ("rhs".[#2]));
    (*1004*) SSet "self" #3 (("self".[#3]) .& ("rhs".[#3]));
    (*1005*) SSet "self" #4 (("self".[#4]) .& ("rhs".[#4])) ]
    [].

(* src/field/mod_e251_9.rs:1008-1011  PrimeField  F::normalize_bitor *)
Definition f_normalize_bitor : func := mkfunc ["self"; "rhs"] [
    (*1009*) SCall [] "F::normalize" [AMut "rhs"];
    (*1010*) SCall [] "F::normalize_self_bitor" [AMut "self"; AVal "rhs"] ]
    [].

(* src/field/mod_e251_9.rs:1013-1016  PrimeField  F::normalize_self_bitor *)
Definition f_normalize_self_bitor : func := mkfunc ["self"; "rhs"] [
    (*1014*) SCall [] "F::normalize" [AMut "self"];
    (*1015*) SCall [] "F::normalized_bitor" [AMut "self"; AVal "rhs"] ]
    [].

(* src/field/mod_e251_9.rs:1018-1024  PrimeField  F::normalized_bitor *)
Definition f_normalized_bitor : func := mkfunc ["self"; "rhs"] [
    (*1019*) SSet "self" #0 (("self".[#0]) .| ("rhs".[#0]));
    (*1020*) SSet "self" #1 (("self".[#1]) .| ("rhs".[#1]));
    (*1021*) SSet "self" #2 (("self".[#2]) .| ("rhs".[#2]));
    (*1022*) SSet "self" #3 (("self".[#3]) .| ("rhs".[#3]));
    (*1023*) SSet "self" #4 (("self".[#4]) .| ("rhs".[#4])) ]
    [].

(* src/field/mod_e251_9.rs:1026-1028  PrimeField  F::zero *)
Definition f_zero : func := mkfunc [] [
 ]
    [ELit ZERO].

(* src/field/mod_e251_9.rs:1030-1032  PrimeField  F::one *)
Definition f_one : func := mkfunc [] [
 ]
    [ELit ONE].

(* src/field/mod_e251_9.rs:1034-1036  PrimeField  F::m_one *)
Definition f_m_one : func := mkfunc [] [
 ]
    [ELit M_ONE].

(* src/field/mod_e251_9.rs:1038-1040  PrimeField  F::modulus *)
Definition f_modulus : func := mkfunc [] [
 ]
    [ELit MODULUS].

(* src/field/mod_e251_9.rs:1042-1243  PrimeField  F::square *)
Definition f_square : func := mkfunc ["self"] [
    (*1043*) "a0" <- ("self".[#0]) .& #0x0fffffff;
    (*1044*) "a1" <- ("self".[#0]) .>> #28;
    (*1045*) "a2" <- ("self".[#1]) .& #0x0fffffff;
    (*1046*) "a3" <- ("self".[#1]) .>> #28;
    (*1047*) "a4" <- ("self".[#2]) .& #0x0fffffff;
    (*1048*) "a5" <- ("self".[#2]) .>> #28;
    (*1049*) "a6" <- ("self".[#3]) .& #0x0fffffff;
    (*1050*) "a7" <- ("self".[#3]) .>> #28;
    (*1051*) "a8" <- "self".[#4];
    (*1054*) "m_0_0" <- "a0" .* "a0";
    (*1055*) "m_0_1" <- "a0" .* "a1";
    (*1056*) "m_0_2" <- "a0" .* "a2";
    (*1057*) "m_0_3" <- "a0" .* "a3";
    (*1058*) "m_0_4" <- "a0" .* "a4";
    (*1059*) "m_0_5" <- "a0" .* "a5";
    (*1060*) "m_0_6" <- "a0" .* "a6";
    (*1061*) "m_0_7" <- "a0" .* "a7";
    (*1062*) "m_0_8" <- "a0" .* "a8";
    (*1063*) "m_1_0" <- "m_0_1";
    (*1064*) "m_1_1" <- "a1" .* "a1";
    (*1065*) "m_1_2" <- "a1" .* "a2";
    (*1066*) "m_1_3" <- "a1" .* "a3";
    (*1067*) "m_1_4" <- "a1" .* "a4";
    (*1068*) "m_1_5" <- "a1" .* "a5";
    (*1069*) "m_1_6" <- "a1" .* "a6";
    (*1070*) "m_1_7" <- "a1" .* "a7";
    (*1071*) "m_1_8" <- "a1" .* "a8";
    (*1072*) "m_2_0" <- "m_0_2";
    (*1073*) "m_2_1" <- "m_1_2";
    (*1074*) "m_2_2" <- "a2" .* "a2";
    (*1075*) "m_2_3" <- "a2" .* "a3";
    (*1076*) "m_2_4" <- "a2" .* "a4";
    (*1077*) "m_2_5" <- "a2" .* "a5";
    (*1078*) "m_2_6" <- "a2" .* "a6";
    (*1079*) "m_2_7" <- "a2" .* "a7";
    (*1080*) "m_2_8" <- "a2" .* "a8";
    (*1081*) "m_3_0" <- "m_0_3";
    (*1082*) "m_3_1" <- "m_1_3";
    (*1083*) "m_3_2" <- "m_2_3";
    (*1084*) "m_3_3" <- "a3" .* "a3";
    (*1085*) "m_3_4" <- "a3" .* "a4";
    (*1086*) "m_3_5" <- "a3" .* "a5";
    (*1087*) "m_3_6" <- "a3" .* "a6";
    (*1088*) "m_3_7" <- "a3" .* "a7";
    (*1089*) "m_3_8" <- "a3" .* "a8";
    (*1090*) "m_4_0" <- "m_0_4";
    (*1091*) "m_4_1" <- "m_1_4";
    (*1092*) "m_4_2" <- "m_2_4";
    (*1093*) "m_4_3" <- "m_3_4";
    (*1094*) "m_4_4" <- "a4" .* "a4";
    (*1095*) "m_4_5" <- "a4" .* "a5";
    (*1096*) "m_4_6" <- "a4" .* "a6";
    (*1097*) "m_4_7" <- "a4" .* "a7";
    (*1098*) "m_4_8" <- "a4" .* "a8";
    (*1099*) "m_5_0" <- "m_0_5";
    (*1100*) "m_5_1" <- "m_1_5";
    (*1101*) "m_5_2" <- "m_2_5";
    (*1102*) "m_5_3" <- "m_3_5";
    (*1103*) "m_5_4" <- "m_4_5";
    (*1104*) "m_5_5" <- "a5" .* "a5";
    (*1105*) "m_5_6" <- "a5" .* "a6";
    (*1106*) "m_5_7" <- "a5" .* "a7";
    (*1107*) "m_5_8" <- "a5" .* "a8";
    (*1108*) "m_6_0" <- "m_0_6";
    (*1109*) "m_6_1" <- "m_1_6";
    (*1110*) "m_6_2" <- "m_2_6";
    (*1111*) "m_6_3" <- "m_3_6";
    (*1112*) "m_6_4" <- "m_4_6";
    (*1113*) "m_6_5" <- "m_5_6";
    (*1114*) "m_6_6" <- "a6" .* "a6";
    (*1115*) "m_6_7" <- "a6" .* "a7";
    (*1116*) "m_6_8" <- "a6" .* "a8";
    (*1117*) "m_7_0" <- "m_0_7";
    (*1118*) "m_7_1" <- "m_1_7";
    (*1119*) "m_7_2" <- "m_2_7";
    (*1120*) "m_7_3" <- "m_3_7";
    (*1121*) "m_7_4" <- "m_4_7";
    (*1122*) "m_7_5" <- "m_5_7";
    (*1123*) "m_7_6" <- "m_6_7";
    (*1124*) "m_7_7" <- "a7" .* "a7";
    (*1125*) "m_7_8" <- "a7" .* "a8";
    (*1126*) "m_8_0" <- "m_0_8";
    (*1127*) "m_8_1" <- "m_1_8";
    (*1128*) "m_8_2" <- "m_2_8";
    (*1129*) "m_8_3" <- "m_3_8";
    (*1130*) "m_8_4" <- "m_4_8";
    (*1131*) "m_8_5" <- "m_5_8";
    (*1132*) "m_8_6" <- "m_6_8";
    (*1133*) "m_8_7" <- "m_7_8";
    (*1134*) "m_8_8" <- "a8" .* "a8";
    (*1137*) "d0" <- ("m_0_0" .+ (("m_0_1" .& #0x0fffffff) .<< #28)) .+ (("m_1_0" .& #0x0fffffff) .<< #28);
    (*1139*) "c0" <- "d0" .>> #56;
    (*1140*) "d1" <- ((((((((("m_0_1" .>> #28) .+ "m_0_2") .+ (("m_0_3" .& #0x0fffffff) .<< #28)) .+ ("m_1_0" .>> #28)) .+ "m_1_1") .+ (("m_1_2" .& #0x0fffffff) .<< #28)) .+ "m_2_0") .+ (("m_2_1" .& #0x0fffffff) .<< #28)) .+ (("m_3_0" .& #0x0fffffff) .<< #28)) .+ "c0";
    (*1144*) "c1" <- "d1" .>> #56;
    (*1145*) "d2" <- ((((((((((((((("m_0_3" .>> #28) .+ "m_0_4") .+ (("m_0_5" .& #0x0fffffff) .<< #28)) .+ ("m_1_2" .>> #28)) .+ "m_1_3") .+ (("m_1_4" .& #0x0fffffff) .<< #28)) .+ ("m_2_1" .>> #28)) .+ "m_2_2") .+ (("m_2_3" .& #0x0fffffff) .<< #28)) .+ ("m_3_0" .>> #28)) .+ "m_3_1") .+ (("m_3_2" .& #0x0fffffff) .<< #28)) .+ "m_4_0") .+ (("m_4_1" .& #0x0fffffff) .<< #28)) .+ (("m_5_0" .& #0x0fffffff) .<< #28)) .+ "c1";
    (*1151*) "c2" <- "d2" .>> #56;
    (*1152*) "d3" <- ((((((((((((((((((((("m_0_5" .>> #28) .+ "m_0_6") .+ (("m_0_7" .& #0x0fffffff) .<< #28)) .+ ("m_1_4" .>> #28)) .+ "m_1_5") .+ (("m_1_6" .& #0x0fffffff) .<< #28)) .+ ("m_2_3" .>> #28)) .+ "m_2_4") .+ (("m_2_5" .& #0x0fffffff) .<< #28)) .+ ("m_3_2" .>> #28)) .+ "m_3_3") .+ (("m_3_4" .& #0x0fffffff) .<< #28)) .+ ("m_4_1" .>> #28)) .+ "m_4_2") .+ (("m_4_3" .& #0x0fffffff) .<< #28)) .+ ("m_5_0" .>> #28)) .+ "m_5_1") .+ (("m_5_2" .& #0x0fffffff) .<< #28)) .+ "m_6_0") .+ (("m_6_1" .& #0x0fffffff) .<< #28)) .+ (("m_7_0" .& #0x0fffffff) .<< #28)) .+ "c2";
    (*1160*) "c3" <- "d3" .>> #56;
    (*1161*) "d4" <- ((((((((((((((((((((((((("m_0_7" .>> #28) .+ "m_0_8") .+ ("m_1_6" .>> #28)) .+ "m_1_7") .+ (("m_1_8" .& #0x0fffffff) .<< #28)) .+ ("m_2_5" .>> #28)) .+ "m_2_6") .+ (("m_2_7" .& #0x0fffffff) .<< #28)) .+ ("m_3_4" .>> #28)) .+ "m_3_5") .+ (("m_3_6" .& #0x0fffffff) .<< #28)) .+ ("m_4_3" .>> #28)) .+ "m_4_4") .+ (("m_4_5" .& #0x0fffffff) .<< #28)) .+ ("m_5_2" .>> #28)) .+ "m_5_3") .+ (("m_5_4" .& #0x0fffffff) .<< #28)) .+ ("m_6_1" .>> #28)) .+ "m_6_2") .+ (("m_6_3" .& #0x0fffffff) .<< #28)) .+ ("m_7_0" .>> #28)) .+ "m_7_1") .+ (("m_7_2" .& #0x0fffffff) .<< #28)) .+ "m_8_0") .+ (("m_8_1" .& #0x0fffffff) .<< #28)) .+ "c3";
    (*1171*) "c4" <- "d4" .>> #56;
    (*1172*) "d5" <- ((((((((((((((((((((("m_1_8" .>> #28) .+ ("m_2_7" .>> #28)) .+ "m_2_8") .+ ("m_3_6" .>> #28)) .+ "m_3_7") .+ (("m_3_8" .& #0x0fffffff) .<< #28)) .+ ("m_4_5" .>> #28)) .+ "m_4_6") .+ (("m_4_7" .& #0x0fffffff) .<< #28)) .+ ("m_5_4" .>> #28)) .+ "m_5_5") .+ (("m_5_6" .& #0x0fffffff) .<< #28)) .+ ("m_6_3" .>> #28)) .+ "m_6_4") .+ (("m_6_5" .& #0x0fffffff) .<< #28)) .+ ("m_7_2" .>> #28)) .+ "m_7_3") .+ (("m_7_4" .& #0x0fffffff) .<< #28)) .+ ("m_8_1" .>> #28)) .+ "m_8_2") .+ (("m_8_3" .& #0x0fffffff) .<< #28)) .+ "c4";
    (*1181*) "c5" <- "d5" .>> #56;
    (*1182*) "d6" <- ((((((((((((((("m_3_8" .>> #28) .+ ("m_4_7" .>> #28)) .+ "m_4_8") .+ ("m_5_6" .>> #28)) .+ "m_5_7") .+ (("m_5_8" .& #0x0fffffff) .<< #28)) .+ ("m_6_5" .>> #28)) .+ "m_6_6") .+ (("m_6_7" .& #0x0fffffff) .<< #28)) .+ ("m_7_4" .>> #28)) .+ "m_7_5") .+ (("m_7_6" .& #0x0fffffff) .<< #28)) .+ ("m_8_3" .>> #28)) .+ "m_8_4") .+ (("m_8_5" .& #0x0fffffff) .<< #28)) .+ "c5";
    (*1189*) "c6" <- "d6" .>> #56;
    (*1190*) "d7" <- ((((((((("m_5_8" .>> #28) .+ ("m_6_7" .>> #28)) .+ "m_6_8") .+ ("m_7_6" .>> #28)) .+ "m_7_7") .+ (("m_7_8" .& #0x0fffffff) .<< #28)) .+ ("m_8_5" .>> #28)) .+ "m_8_6") .+ (("m_8_7" .& #0x0fffffff) .<< #28)) .+ "c6";
    (*1195*) "c7" <- "d7" .>> #56;
    (*1196*) "d8" <- ((("m_7_8" .>> #28) .+ ("m_8_7" .>> #28)) .+ "m_8_8") .+ "c7";
    (*1202*) "l0_0" <- "d0" .& #0x00ffffffffffffff;
    (*1203*) "l1_0" <- "d1" .& #0x00ffffffffffffff;
    (*1204*) "l2_0" <- "d2" .& #0x00ffffffffffffff;
    (*1205*) "l3_0" <- "d3" .& #0x00ffffffffffffff;
    (*1206*) "l4_0" <- "d4" .& #0x0000000007ffffff;
    (*1209*) "h0_0" <- (("d4" .& #0x00ffffffffffffff) .>> #27) .| (("d5" .& #0x0000000007ffffff) .<< #29);
    (*1211*) "h1_0" <- (("d5" .& #0x00ffffffffffffff) .>> #27) .| (("d6" .& #0x0000000007ffffff) .<< #29);
    (*1213*) "h2_0" <- (("d6" .& #0x00ffffffffffffff) .>> #27) .| (("d7" .& #0x0000000007ffffff) .<< #29);
    (*1215*) "h3_0" <- (("d7" .& #0x00ffffffffffffff) .>> #27) .| (("d8" .& #0x0000000007ffffff) .<< #29);
    (*1217*) "h4_0" <- "d8" .>> #27;
    (*1220*) "hc0_0" <- "h0_0" .* (EInt C_VAL);
    (*1221*) "hc1_0" <- "h1_0" .* (EInt C_VAL);
    (*1222*) "hc2_0" <- "h2_0" .* (EInt C_VAL);
    (*1223*) "hc3_0" <- "h3_0" .* (EInt C_VAL);
    (*1224*) "hc4_0" <- "h4_0" .* (EInt C_VAL);
    (*1227*) "kin_0" <- "hc4_0" .>> #27;
    (*1228*) "s0_0" <- ("l0_0" .+ "hc0_0") .+ ("kin_0" .* (EInt C_VAL));
    (*1229*) "k0_0" <- "s0_0" .>> #56;
    (*1230*) "s1_0" <- ("l1_0" .+ "hc1_0") .+ "k0_0";
    (*1231*) "k1_0" <- "s1_0" .>> #56;
    (*1232*) "s2_0" <- ("l2_0" .+ "hc2_0") .+ "k1_0";
    (*1233*) "k2_0" <- "s2_0" .>> #56;
    (*1234*) "s3_0" <- ("l3_0" .+ "hc3_0") .+ "k2_0";
    (*1235*) "k3_0" <- "s3_0" .>> #56;
    (*1236*) "s4_0" <- ("l4_0" .+ ("hc4_0" .& #0x0000000007ffffff)) .+ "k3_0";
    (*1238*) SSet "self" #0 ("s0_0" .& #0x00ffffffffffffff);
    (*1239*) SSet "self" #1 ("s1_0" .& #0x00ffffffffffffff);
    (*1240*) SSet "self" #2 ("s2_0" .& #0x00ffffffffffffff);
    (*1241*) SSet "self" #3 ("s3_0" .& #0x00ffffffffffffff);
    (*1242*) SSet "self" #4 ("s4_0") ]
    [].

(* src/field/mod_e251_9.rs:1245-1251  PrimeField  F::squared *)
Definition f_squared : func := mkfunc ["self"] [
    (*1246*) "out" <- "self";
    (*1248*) SCall [] "F::square" [AMut "out"] ]
    [EVar "out"].

(* src/field/mod_e251_9.rs:1253-1272  PrimeField  F::invert *)
Definition f_invert : func := mkfunc ["self"] [
    (*1255*) "sqval" <- "self";
    (*1258*) SCall [] "F::square" [AMut "sqval"];
    (*1261*) SCall [] "F::square" [AMut "sqval"];
    (*1262*) SCall [] "F::mul_assign(&F)" [AMut "self"; AVal "sqval"];
    (*1265*) SCall [] "F::square" [AMut "sqval"];
    (*1268*) SFor "_" #4 #251 [
      (*1269*) SCall [] "F::square" [AMut "sqval"];
      (*1270*) SCall [] "F::mul_assign(&F)" [AMut "self"; AVal "sqval"] ] ]
    [].

(* src/field/mod_e251_9.rs:1274-1280  PrimeField  F::inverted *)
Definition f_inverted : func := mkfunc ["self"] [
    (*1275*) "out" <- "self";
    (*1277*) SCall [] "F::invert" [AMut "out"] ]
    [EVar "out"].

(* src/field/mod_e251_9.rs:1282-1301  PrimeField  F::legendre *)
Definition f_legendre : func := mkfunc ["self"] [
    (*1284*) "out" <- "self";
    (*1285*) "sqval" <- "out";
    (*1288*) SCall [] "F::square" [AMut "sqval"];
    (*1289*) SCall [] "F::mul_assign(&F)" [AMut "out"; AVal "sqval"];
    (*1292*) SCall [] "F::square" [AMut "sqval"];
    (*1295*) SFor "_" #3 #250 [
      (*1296*) SCall [] "F::square" [AMut "sqval"];
      (*1297*) SCall [] "F::mul_assign(&F)" [AMut "out"; AVal "sqval"] ] ]
    [EVar "out"].

(* src/field/mod_e251_9.rs:1303-1317  PrimeField  F::sqrt *)
Definition f_sqrt : func := mkfunc ["self"] [
    (*1307*) SCall ["out"] "F::squared" [AVal "self"];
    (*1308*) "sqval" <- "out";
    (*1311*) SFor "_" #2 #249 [
      (*1312*) SCall [] "F::square" [AMut "sqval"];
      (*1313*) SCall [] "F::mul_assign(&F)" [AMut "out"; AVal "sqval"] ] ]
    [EVar "out"].

(* src/field/mod_e251_9.rs:1319-1344  PrimeField  F::small_add_assign *)
Definition f_small_add_assign : func := mkfunc ["self"; "rhs"] [
    (*1320*) "a0" <- "self".[#0];
    (*1321*) "a1" <- "self".[#1];
    (*1322*) "a2" <- "self".[#2];
    (*1323*) "a3" <- "self".[#3];
    (*1324*) "a4" <- ("self".[#4]) .& #0x0000000007ffffff;
    (*1326*) "b" <- ECast I64 "rhs";
    (*1328*) "cin" <- carry_out "self";
    (*1329*) "s0" <- ("a0" .+ "b") .+ ("cin" .* (EInt C_VAL));
    (*1330*) "c0" <- "s0" .>> #56;
    (*1331*) "s1" <- "a1" .+ "c0";
    (*1332*) "c1" <- "s1" .>> #56;
    (*1333*) "s2" <- "a2" .+ "c1";
    (*1334*) "c2" <- "s2" .>> #56;
    (*1335*) "s3" <- "a3" .+ "c2";
    (*1336*) "c3" <- "s3" .>> #56;
    (*1337*) "s4" <- "a4" .+ "c3";
    (*1339*) SSet "self" #0 ("s0" .& #0x00ffffffffffffff);
    (*1340*) SSet "self" #1 ("s1" .& #0x00ffffffffffffff);
    (*1341*) SSet "self" #2 ("s2" .& #0x00ffffffffffffff);
    (*1342*) SSet "self" #3 ("s3" .& #0x00ffffffffffffff);
    (*1343*) SSet "self" #4 ("s4") ]
    [].

(* src/field/mod_e251_9.rs:1346-1352  PrimeField  F::small_add *)
Definition f_small_add : func := mkfunc ["self"; "rhs"] [
    (*1347*) "out" <- "self";
    (*1349*) SCall [] "F::small_add_assign" [AMut "out"; AVal "rhs"] ]
    [EVar "out"].

(* src/field/mod_e251_9.rs:1354-1379  PrimeField  F::small_sub_assign *)
Definition f_small_sub_assign : func := mkfunc ["self"; "rhs"] [
    (*1355*) "a0" <- "self".[#0];
    (*1356*) "a1" <- "self".[#1];
    (*1357*) "a2" <- "self".[#2];
    (*1358*) "a3" <- "self".[#3];
    (*1359*) "a4" <- ("self".[#4]) .& #0x0000000007ffffff;
    (*1361*) "b" <- ECast I64 "rhs";
    (*1363*) "cin" <- carry_out "self";
    (*1364*) "s0" <- ("a0" .- "b") .+ ("cin" .* (EInt C_VAL));
    (*1365*) "c0" <- "s0" .>> #56;
    (*1366*) "s1" <- "a1" .+ "c0";
    (*1367*) "c1" <- "s1" .>> #56;
    (*1368*) "s2" <- "a2" .+ "c1";
    (*1369*) "c2" <- "s2" .>> #56;
    (*1370*) "s3" <- "a3" .+ "c2";
    (*1371*) "c3" <- "s3" .>> #56;
    (*1372*) "s4" <- "a4" .+ "c3";
    (*1374*) SSet "self" #0 ("s0" .& #0x00ffffffffffffff);
    (*1375*) SSet "self" #1 ("s1" .& #0x00ffffffffffffff);
    (*1376*) SSet "self" #2 ("s2" .& #0x00ffffffffffffff);
    (*1377*) SSet "self" #3 ("s3" .& #0x00ffffffffffffff);
    (*1378*) SSet "self" #4 ("s4") ]
    [].

(* src/field/mod_e251_9.rs:1381-1387  PrimeField  F::small_sub *)
Definition f_small_sub : func := mkfunc ["self"; "rhs"] [
    (*1382*) "out" <- "self";
    (*1384*) SCall [] "F::small_sub_assign" [AMut "out"; AVal "rhs"] ]
    [EVar "out"].

(* src/field/mod_e251_9.rs:1389-1428  PrimeField  F::small_mul_assign *)
Definition f_small_mul_assign : func := mkfunc ["self"; "rhs"] [
    (*1390*) "a0" <- ("self".[#0]) .& #0x0fffffff;
    (*1391*) "a1" <- ("self".[#0]) .>> #28;
    (*1392*) "a2" <- ("self".[#1]) .& #0x0fffffff;
    (*1393*) "a3" <- ("self".[#1]) .>> #28;
    (*1394*) "a4" <- ("self".[#2]) .& #0x0fffffff;
    (*1395*) "a5" <- ("self".[#2]) .>> #28;
    (*1396*) "a6" <- ("self".[#3]) .& #0x0fffffff;
    (*1397*) "a7" <- ("self".[#3]) .>> #28;
    (*1398*) "a8" <- "self".[#4];
    (*1400*) "b" <- ECast I64 "rhs";
    (*1402*) "m0" <- "a0" .* "b";
    (*1403*) "m1" <- "a1" .* "b";
    (*1404*) "m2" <- "a2" .* "b";
    (*1405*) "m3" <- "a3" .* "b";
    (*1406*) "m4" <- "a4" .* "b";
    (*1407*) "m5" <- "a5" .* "b";
    (*1408*) "m6" <- "a6" .* "b";
    (*1409*) "m7" <- "a7" .* "b";
    (*1410*) "m8" <- "a8" .* "b";
    (*1412*) "cin" <- carry_out "self";
    (*1413*) "d0" <- ("m0" .+ (("m1" .& #0x0fffffff) .<< #28)) .+ ("cin" .* (EInt C_VAL));
    (*1414*) "c0" <- "d0" .>> #56;
    (*1415*) "d1" <- ((("m1" .>> #28) .+ "m2") .+ (("m3" .& #0x0fffffff) .<< #28)) .+ "c0";
    (*1416*) "c1" <- "d1" .>> #56;
    (*1417*) "d2" <- ((("m3" .>> #28) .+ "m4") .+ (("m5" .& #0x0fffffff) .<< #28)) .+ "c1";
    (*1418*) "c2" <- "d2" .>> #56;
    (*1419*) "d3" <- ((("m5" .>> #28) .+ "m6") .+ (("m7" .& #0x0fffffff) .<< #28)) .+ "c2";
    (*1420*) "c3" <- "d3" .>> #56;
    (*1421*) "d4" <- (("m7" .>> #28) .+ "m8") .+ "c3";
    (*1423*) SSet "self" #0 ("d0" .& #0x00ffffffffffffff);
    (*1424*) SSet "self" #1 ("d1" .& #0x00ffffffffffffff);
    (*1425*) SSet "self" #2 ("d2" .& #0x00ffffffffffffff);
    (*1426*) SSet "self" #3 ("d3" .& #0x00ffffffffffffff);
    (*1427*) SSet "self" #4 ("d4") ]
    [].

(* src/field/mod_e251_9.rs:1430-1436  PrimeField  F::small_mul *)
Definition f_small_mul : func := mkfunc ["self"; "b"] [
    (*1431*) "out" <- "self";
    (*1433*) SCall [] "F::small_mul_assign" [AMut "out"; AVal "b"] ]
    [EVar "out"].

(* the function table of this file: every non-test function *)
Definition table : list (string * func) := [
  ("F::Debug::fmt", f_Debug_fmt);
  ("F::LowerHex::fmt", f_LowerHex_fmt);
  ("F::UpperHex::fmt", f_UpperHex_fmt);
  ("F::packed", f_packed);
  ("F::neg", f_neg);
  ("F::add_assign(&F)", f_add_assign_ref);
  ("F::add_assign(F)", f_add_assign_val);
  ("F::add_assign(i32)", f_add_assign_i32);
  ("F::add_assign(i16)", f_add_assign_i16);
  ("F::add_assign(i8)", f_add_assign_i8);
  ("(&F)::add(&F)", f_ref_add_ref);
  ("F::add(F)", f_add_val);
  ("i32::add(&F)", f_i32_add_ref);
  ("i16::add(&F)", f_i16_add_ref);
  ("i8::add(&F)", f_i8_add_ref);
  ("(&F)::add(i32)", f_ref_add_i32);
  ("(&F)::add(i16)", f_ref_add_i16);
  ("(&F)::add(i8)", f_ref_add_i8);
  ("F::add(i32)", f_add_i32);
  ("F::add(i16)", f_add_i16);
  ("F::add(i8)", f_add_i8);
  ("F::div_assign(&F)", f_div_assign_ref);
  ("F::div_assign(F)", f_div_assign_val);
  ("(&F)::div(&F)", f_ref_div_ref);
  ("F::div(F)", f_div_val);
  ("F::sub_assign(&F)", f_sub_assign_ref);
  ("F::sub_assign(F)", f_sub_assign_val);
  ("F::sub_assign(i32)", f_sub_assign_i32);
  ("F::sub_assign(i16)", f_sub_assign_i16);
  ("F::sub_assign(i8)", f_sub_assign_i8);
  ("F::sub(i32)", f_sub_i32);
  ("F::sub(i16)", f_sub_i16);
  ("F::sub(i8)", f_sub_i8);
  ("(&F)::sub(&F)", f_ref_sub_ref);
  ("F::sub(F)", f_sub_val);
  ("(&F)::sub(i32)", f_ref_sub_i32);
  ("(&F)::sub(i16)", f_ref_sub_i16);
  ("(&F)::sub(i8)", f_ref_sub_i8);
  ("F::mul_assign(i32)", f_mul_assign_i32);
  ("F::mul_assign(i16)", f_mul_assign_i16);
  ("F::mul_assign(i8)", f_mul_assign_i8);
  ("F::mul_assign(&F)", f_mul_assign_ref);
  ("F::mul_assign(F)", f_mul_assign_val);
  ("i32::mul(&F)", f_i32_mul_ref);
  ("i16::mul(&F)", f_i16_mul_ref);
  ("i8::mul(&F)", f_i8_mul_ref);
  ("(&F)::mul(i32)", f_ref_mul_i32);
  ("(&F)::mul(i16)", f_ref_mul_i16);
  ("(&F)::mul(i8)", f_ref_mul_i8);
  ("F::mul(i32)", f_mul_i32);
  ("F::mul(i16)", f_mul_i16);
  ("F::mul(i8)", f_mul_i8);
  ("(&F)::mul(&F)", f_ref_mul_ref);
  ("F::mul(F)", f_mul_val);
  ("F::rand", f_rand);
  ("F::unpack", f_unpack);
  ("F::unpacked", f_unpacked);
  ("F::pack", f_pack);
  ("F::pack_normalized", f_pack_normalized);
  ("F::nbytes", f_nbytes);
  ("F::normalize", f_normalize);
  ("F::normalize_self_eq", f_normalize_self_eq);
  ("F::normalize_eq", f_normalize_eq);
  ("Mask::fill", f_Mask_fill);
  ("Mask::filled", f_Mask_filled);
  ("F::fill", f_fill);
  ("F::filled", f_filled);
  ("F::nbits", f_nbits);
  ("F::bit_normalized", f_bit_normalized);
  ("F::bit", f_bit);
  ("F::normalize_bitand", f_normalize_bitand);
  ("F::normalize_self_bitand", f_normalize_self_bitand);
  ("F::normalized_bitand", f_normalized_bitand);
  ("F::normalize_bitor", f_normalize_bitor);
  ("F::normalize_self_bitor", f_normalize_self_bitor);
  ("F::normalized_bitor", f_normalized_bitor);
  ("F::zero", f_zero);
  ("F::one", f_one);
  ("F::m_one", f_m_one);
  ("F::modulus", f_modulus);
  ("F::square", f_square);
  ("F::squared", f_squared);
  ("F::invert", f_invert);
  ("F::inverted", f_inverted);
  ("F::legendre", f_legendre);
  ("F::sqrt", f_sqrt);
  ("F::small_add_assign", f_small_add_assign);
  ("F::small_add", f_small_add);
  ("F::small_sub_assign", f_small_sub_assign);
  ("F::small_sub", f_small_sub);
  ("F::small_mul_assign", f_small_mul_assign);
  ("F::small_mul", f_small_mul)].
