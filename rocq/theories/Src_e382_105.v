(* Generated by tools/rust2coq.py from src/field/mod_e382_105.rs -- do not edit.
   One definition per item; each statement is preceded by its source line. *)
From Coq Require Import ZArith List String.
From Verif Require Import Lang.
Import ListNotations LangNotations.
Local Open Scope Z_scope.
Local Open Scope string_scope.

(* src/field/mod_e382_105.rs:41 *)
Definition C_VAL : Z := 105.

(* src/field/mod_e382_105.rs:44-44 *)
Definition ZERO : list Z := [0; 0; 0; 0; 0; 0; 0].

(* src/field/mod_e382_105.rs:47-47 *)
Definition ONE : list Z := [1; 0; 0; 0; 0; 0; 0].

(* src/field/mod_e382_105.rs:50-54 *)
Definition M_ONE : list Z := [0x00ffffffffffff96; 0x00ffffffffffffff; 0x00ffffffffffffff; 0x00ffffffffffffff; 0x00ffffffffffffff; 0x00ffffffffffffff; 0x00003fffffffffff].

(* src/field/mod_e382_105.rs:57-61 *)
Definition MODULUS : list Z := [0x00ffffffffffff97; 0x00ffffffffffffff; 0x00ffffffffffffff; 0x00ffffffffffffff; 0x00ffffffffffffff; 0x00ffffffffffffff; 0x00003fffffffffff].

(* src/field/mod_e382_105.rs:65-69 *)
Definition E382_D : list Z := [0x00fffffffffef8e1; 0x00ffffffffffffff; 0x00ffffffffffffff; 0x00ffffffffffffff; 0x00ffffffffffffff; 0x00ffffffffffffff; 0x00003fffffffffff].

(* src/field/mod_e382_105.rs:73-77 *)
Definition E382_BASE_X : list Z := [0x00c0cc9470f79603; 0x007dbce8105398eb; 0x00b8536484119351; 0x002b0b64352923ba; 0x008d20ae68f84003; 0x000391e5f05be96e; 0x0000196f8dd0eab2].

(* src/field/mod_e382_105.rs:80-80 *)
Definition E382_BASE_Y : list Z := [0x11; 0; 0; 0; 0; 0; 0].

(* src/field/mod_e382_105.rs:84-88 *)
Definition E382_ORDER : list Z := [0x00e27e13fd3c9719; 0x0069281b102d2773; 0x00f21e95eee17c5e; 0x00ffffffffd5fb21; 0x00ffffffffffffff; 0x00ffffffffffffff; 0x00000fffffffffff].

(* src/field/mod_e382_105.rs:132-134  inherent F::carry_out (one-line method, kept as a macro on its receiver) *)
Definition carry_out (self : expr) : expr := self.[#6] .>> #46.

(* src/field/mod_e382_105.rs:91-99  Debug  F::Debug::fmt *)
Definition f_Debug_fmt : func := mkfunc ["self"; "f"] [
    (*92*) SPushStr "f" "Mod_e382_105: [ ";
    (*92*) SPushHex "f" false false 64 ("self".[#0]);
    (*94*) SFor "i" #1 #7 [
      (*95*) SPushStr "f" ", ";
      (*95*) SPushHex "f" false false 64 ("self".["i"]) ];
    (*98*) SPushStr "f" " ]" ]
    [].

(* src/field/mod_e382_105.rs:103-112  LowerHex  F::LowerHex::fmt *)
Definition f_LowerHex_fmt : func := mkfunc ["self"; "f"] [
    (*104*) "cpy" <- "self";
    (*105*) SCall ["bytes"] "F::packed" [AMut "cpy"];
    (*107*) SFor "i" #0 #48 [
      (*108*) SPushHex "f" false true 8 ("bytes".[EUSub #47 "i"]) ] ]
    [].

(* src/field/mod_e382_105.rs:116-125  UpperHex  F::UpperHex::fmt *)
Definition f_UpperHex_fmt : func := mkfunc ["self"; "f"] [
    (*117*) "cpy" <- "self";
    (*118*) SCall ["bytes"] "F::packed" [AMut "cpy"];
    (*120*) SFor "i" #0 #48 [
      (*121*) SPushHex "f" true true 8 ("bytes".[EUSub #47 "i"]) ] ]
    [].

(* src/field/mod_e382_105.rs:138-142  inherent  F::packed *)
Definition f_packed : func := mkfunc ["self"] [
    (*139*) "out" <- ERep #0 48;
    (*140*) SCall [] "F::pack" [AMut "self"; AMut "out"] ]
    [EVar "out"].

(* src/field/mod_e382_105.rs:148-153  Neg  F::neg *)
Definition f_neg : func := mkfunc ["self"] [
    (*149*) "out" <- "self";
    (*151*) SCall [] "F::add_assign(&F)" [AMut "out"; AVal (ELit MODULUS)] ]
    [EVar "out"].

(* src/field/mod_e382_105.rs:157-196  AddAssign<&F>  F::add_assign(&F) *)
Definition f_add_assign_ref : func := mkfunc ["self"; "rhs"] [
    (*158*) "a0" <- "self".[#0];
    (*159*) "a1" <- "self".[#1];
    (*160*) "a2" <- "self".[#2];
    (*161*) "a3" <- "self".[#3];
    (*162*) "a4" <- "self".[#4];
    (*163*) "a5" <- "self".[#5];
    (*164*) "a6" <- ("self".[#6]) .& #0x00003fffffffffff;
    (*166*) "b0" <- "rhs".[#0];
    (*167*) "b1" <- "rhs".[#1];
    (*168*) "b2" <- "rhs".[#2];
    (*169*) "b3" <- "rhs".[#3];
    (*170*) "b4" <- "rhs".[#4];
    (*171*) "b5" <- "rhs".[#5];
    (*172*) "b6" <- ("rhs".[#6]) .& #0x00003fffffffffff;
    (*174*) "cin" <- (carry_out "self") .+ (carry_out "rhs");
    (*175*) "s0" <- ("a0" .+ "b0") .+ ("cin" .* (EInt C_VAL));
    (*176*) "c0" <- "s0" .>> #56;
    (*177*) "s1" <- ("a1" .+ "b1") .+ "c0";
    (*178*) "c1" <- "s1" .>> #56;
    (*179*) "s2" <- ("a2" .+ "b2") .+ "c1";
    (*180*) "c2" <- "s2" .>> #56;
    (*181*) "s3" <- ("a3" .+ "b3") .+ "c2";
    (*182*) "c3" <- "s3" .>> #56;
    (*183*) "s4" <- ("a4" .+ "b4") .+ "c3";
    (*184*) "c4" <- "s4" .>> #56;
    (*185*) "s5" <- ("a5" .+ "b5") .+ "c4";
    (*186*) "c5" <- "s5" .>> #56;
    (*187*) "s6" <- ("a6" .+ "b6") .+ "c5";
    (*189*) SSet "self" #0 ("s0" .& #0x00ffffffffffffff);
    (*190*) SSet "self" #1 ("s1" .& #0x00ffffffffffffff);
    (*191*) SSet "self" #2 ("s2" .& #0x00ffffffffffffff);
    (*192*) SSet "self" #3 ("s3" .& #0x00ffffffffffffff);
    (*193*) SSet "self" #4 ("s4" .& #0x00ffffffffffffff);
    (*194*) SSet "self" #5 ("s5" .& #0x00ffffffffffffff);
    (*195*) SSet "self" #6 ("s6") ]
    [].

(* src/field/mod_e382_105.rs:200-202  AddAssign<F>  F::add_assign(F) *)
Definition f_add_assign_val : func := mkfunc ["self"; "rhs"] [
    (*201*) SCall [] "F::add_assign(&F)" [AMut "self"; AVal "rhs"] ]
    [].

(* src/field/mod_e382_105.rs:206-208  AddAssign<i32>  F::add_assign(i32) *)
Definition f_add_assign_i32 : func := mkfunc ["self"; "rhs"] [
    (*207*) SCall [] "F::small_add_assign" [AMut "self"; AVal "rhs"] ]
    [].

(* src/field/mod_e382_105.rs:212-214  AddAssign<i16>  F::add_assign(i16) *)
Definition f_add_assign_i16 : func := mkfunc ["self"; "rhs"] [
    (*213*) SCall [] "F::small_add_assign" [AMut "self"; AVal (ECast I32 "rhs")] ]
    [].

(* src/field/mod_e382_105.rs:218-220  AddAssign<i8>  F::add_assign(i8) *)
Definition f_add_assign_i8 : func := mkfunc ["self"; "rhs"] [
    (*219*) SCall [] "F::small_add_assign" [AMut "self"; AVal (ECast I32 "rhs")] ]
    [].

(* src/field/mod_e382_105.rs:226-230  Add<&F>  (&F)::add(&F) *)
Definition f_ref_add_ref : func := mkfunc ["self"; "a"] [
    (*227*) "out" <- "self";
    (*228*) SCall [] "F::add_assign(&F)" [AMut "out"; AVal "a"] ]
    [EVar "out"].

(* src/field/mod_e382_105.rs:236-238  Add<F>  F::add(F) *)
Definition f_add_val : func := mkfunc ["self"; "a"] [
    (*237*) SCall ["%1"] "(&F)::add(&F)" [AVal "self"; AVal "a"] ]
    [EVar "%1"].

(* src/field/mod_e382_105.rs:244-246  Add<&F>  i32::add(&F) *)
Definition f_i32_add_ref : func := mkfunc ["self"; "a"] [
    (*245*) SCall ["%1"] "F::small_add" [AVal "a"; AVal "self"] ]
    [EVar "%1"].

(* src/field/mod_e382_105.rs:252-254  Add<&F>  i16::add(&F) *)
Definition f_i16_add_ref : func := mkfunc ["self"; "a"] [
    (*253*) SCall ["%1"] "F::small_add" [AVal "a"; AVal (ECast I32 "self")] ]
    [EVar "%1"].

(* src/field/mod_e382_105.rs:260-262  Add<&F>  i8::add(&F) *)
Definition f_i8_add_ref : func := mkfunc ["self"; "a"] [
    (*261*) SCall ["%1"] "F::small_add" [AVal "a"; AVal (ECast I32 "self")] ]
    [EVar "%1"].

(* src/field/mod_e382_105.rs:268-270  Add<i32>  (&F)::add(i32) *)
Definition f_ref_add_i32 : func := mkfunc ["self"; "a"] [
    (*269*) SCall ["%1"] "F::small_add" [AVal "self"; AVal "a"] ]
    [EVar "%1"].

(* src/field/mod_e382_105.rs:276-278  Add<i16>  (&F)::add(i16) *)
Definition f_ref_add_i16 : func := mkfunc ["self"; "a"] [
    (*277*) SCall ["%1"] "F::small_add" [AVal "self"; AVal (ECast I32 "a")] ]
    [EVar "%1"].

(* src/field/mod_e382_105.rs:284-286  Add<i8>  (&F)::add(i8) *)
Definition f_ref_add_i8 : func := mkfunc ["self"; "a"] [
    (*285*) SCall ["%1"] "F::small_add" [AVal "self"; AVal (ECast I32 "a")] ]
    [EVar "%1"].

(* src/field/mod_e382_105.rs:292-294  Add<i32>  F::add(i32) *)
Definition f_add_i32 : func := mkfunc ["self"; "a"] [
    (*293*) SCall ["%1"] "(&F)::add(i32)" [AVal "self"; AVal "a"] ]
    [EVar "%1"].

(* src/field/mod_e382_105.rs:300-302  Add<i16>  F::add(i16) *)
Definition f_add_i16 : func := mkfunc ["self"; "a"] [
    (*301*) SCall ["%1"] "(&F)::add(i16)" [AVal "self"; AVal "a"] ]
    [EVar "%1"].

(* src/field/mod_e382_105.rs:308-310  Add<i8>  F::add(i8) *)
Definition f_add_i8 : func := mkfunc ["self"; "a"] [
    (*309*) SCall ["%1"] "(&F)::add(i8)" [AVal "self"; AVal "a"] ]
    [EVar "%1"].

(* src/field/mod_e382_105.rs:314-316  DivAssign<&F>  F::div_assign(&F) *)
Definition f_div_assign_ref : func := mkfunc ["self"; "rhs"] [
    (*315*) SCall ["%1"] "F::inverted" [AVal "rhs"];
    (*315*) SCall [] "F::mul_assign(&F)" [AMut "self"; AVal "%1"] ]
    [].

(* src/field/mod_e382_105.rs:320-322  DivAssign<F>  F::div_assign(F) *)
Definition f_div_assign_val : func := mkfunc ["self"; "rhs"] [
    (*321*) SCall [] "F::div_assign(&F)" [AMut "self"; AVal "rhs"] ]
    [].

(* src/field/mod_e382_105.rs:328-332  Div<&F>  (&F)::div(&F) *)
Definition f_ref_div_ref : func := mkfunc ["self"; "a"] [
    (*329*) "out" <- "self";
    (*330*) SCall [] "F::div_assign(&F)" [AMut "out"; AVal "a"] ]
    [EVar "out"].

(* src/field/mod_e382_105.rs:338-340  Div<F>  F::div(F) *)
Definition f_div_val : func := mkfunc ["self"; "a"] [
    (*339*) SCall ["%1"] "(&F)::div(&F)" [AVal "self"; AVal "a"] ]
    [EVar "%1"].

(* src/field/mod_e382_105.rs:344-383  SubAssign<&F>  F::sub_assign(&F) *)
Definition f_sub_assign_ref : func := mkfunc ["self"; "rhs"] [
    (*345*) "a0" <- "self".[#0];
    (*346*) "a1" <- "self".[#1];
    (*347*) "a2" <- "self".[#2];
    (*348*) "a3" <- "self".[#3];
    (*349*) "a4" <- "self".[#4];
    (*350*) "a5" <- "self".[#5];
    (*351*) "a6" <- ("self".[#6]) .& #0x00003fffffffffff;
    (*353*) "b0" <- "rhs".[#0];
    (*354*) "b1" <- "rhs".[#1];
    (*355*) "b2" <- "rhs".[#2];
    (*356*) "b3" <- "rhs".[#3];
    (*357*) "b4" <- "rhs".[#4];
    (*358*) "b5" <- "rhs".[#5];
    (*359*) "b6" <- ("rhs".[#6]) .& #0x00003fffffffffff;
    (*361*) "cin" <- (carry_out "self") .+ (carry_out "rhs");
    (*362*) "s0" <- ("a0" .- "b0") .+ ("cin" .* (EInt C_VAL));
    (*363*) "c0" <- "s0" .>> #56;
    (*364*) "s1" <- ("a1" .- "b1") .+ "c0";
    (*365*) "c1" <- "s1" .>> #56;
    (*366*) "s2" <- ("a2" .- "b2") .+ "c1";
    (*367*) "c2" <- "s2" .>> #56;
    (*368*) "s3" <- ("a3" .- "b3") .+ "c2";
    (*369*) "c3" <- "s3" .>> #56;
    (*370*) "s4" <- ("a4" .- "b4") .+ "c3";
    (*371*) "c4" <- "s4" .>> #56;
    (*372*) "s5" <- ("a5" .- "b5") .+ "c4";
    (*373*) "c5" <- "s5" .>> #56;
    (*374*) "s6" <- ("a6" .- "b6") .+ "c5";
    (*376*) SSet "self" #0 ("s0" .& #0x00ffffffffffffff);
    (*377*) SSet "self" #1 ("s1" .& #0x00ffffffffffffff);
    (*378*) SSet "self" #2 ("s2" .& #0x00ffffffffffffff);
    (*379*) SSet "self" #3 ("s3" .& #0x00ffffffffffffff);
    (*380*) SSet "self" #4 ("s4" .& #0x00ffffffffffffff);
    (*381*) SSet "self" #5 ("s5" .& #0x00ffffffffffffff);
    (*382*) SSet "self" #6 ("s6") ]
    [].

(* src/field/mod_e382_105.rs:387-389  SubAssign<F>  F::sub_assign(F) *)
Definition f_sub_assign_val : func := mkfunc ["self"; "rhs"] [
    (*388*) SCall [] "F::sub_assign(&F)" [AMut "self"; AVal "rhs"] ]
    [].

(* src/field/mod_e382_105.rs:393-395  SubAssign<i32>  F::sub_assign(i32) *)
Definition f_sub_assign_i32 : func := mkfunc ["self"; "rhs"] [
    (*394*) SCall [] "F::small_sub_assign" [AMut "self"; AVal "rhs"] ]
    [].

(* src/field/mod_e382_105.rs:399-401  SubAssign<i16>  F::sub_assign(i16) *)
Definition f_sub_assign_i16 : func := mkfunc ["self"; "rhs"] [
    (*400*) SCall [] "F::small_sub_assign" [AMut "self"; AVal (ECast I32 "rhs")] ]
    [].

(* src/field/mod_e382_105.rs:405-407  SubAssign<i8>  F::sub_assign(i8) *)
Definition f_sub_assign_i8 : func := mkfunc ["self"; "rhs"] [
    (*406*) SCall [] "F::small_sub_assign" [AMut "self"; AVal (ECast I32 "rhs")] ]
    [].

(* src/field/mod_e382_105.rs:413-415  Sub<i32>  F::sub(i32) *)
Definition f_sub_i32 : func := mkfunc ["self"; "a"] [
    (*414*) SCall ["%1"] "(&F)::sub(i32)" [AVal "self"; AVal "a"] ]
    [EVar "%1"].

(* src/field/mod_e382_105.rs:421-423  Sub<i16>  F::sub(i16) *)
Definition f_sub_i16 : func := mkfunc ["self"; "a"] [
    (*422*) SCall ["%1"] "(&F)::sub(i16)" [AVal "self"; AVal "a"] ]
    [EVar "%1"].

(* src/field/mod_e382_105.rs:429-431  Sub<i8>  F::sub(i8) *)
Definition f_sub_i8 : func := mkfunc ["self"; "a"] [
    (*430*) SCall ["%1"] "(&F)::sub(i8)" [AVal "self"; AVal "a"] ]
    [EVar "%1"].

(* src/field/mod_e382_105.rs:437-441  Sub<&F>  (&F)::sub(&F) *)
Definition f_ref_sub_ref : func := mkfunc ["self"; "a"] [
    (*438*) "out" <- "self";
    (*439*) SCall [] "F::sub_assign(&F)" [AMut "out"; AVal "a"] ]
    [EVar "out"].

(* src/field/mod_e382_105.rs:447-449  Sub<F>  F::sub(F) *)
Definition f_sub_val : func := mkfunc ["self"; "a"] [
    (*448*) SCall ["%1"] "(&F)::sub(&F)" [AVal "self"; AVal "a"] ]
    [EVar "%1"].

(* src/field/mod_e382_105.rs:455-457  Sub<i32>  (&F)::sub(i32) *)
Definition f_ref_sub_i32 : func := mkfunc ["self"; "a"] [
    (*456*) SCall ["%1"] "F::small_sub" [AVal "self"; AVal "a"] ]
    [EVar "%1"].

(* src/field/mod_e382_105.rs:463-465  Sub<i16>  (&F)::sub(i16) *)
Definition f_ref_sub_i16 : func := mkfunc ["self"; "a"] [
    (*464*) SCall ["%1"] "F::small_sub" [AVal "self"; AVal (ECast I32 "a")] ]
    [EVar "%1"].

(* src/field/mod_e382_105.rs:471-473  Sub<i8>  (&F)::sub(i8) *)
Definition f_ref_sub_i8 : func := mkfunc ["self"; "a"] [
    (*472*) SCall ["%1"] "F::small_sub" [AVal "self"; AVal (ECast I32 "a")] ]
    [EVar "%1"].

(* src/field/mod_e382_105.rs:477-479  MulAssign<i32>  F::mul_assign(i32) *)
Definition f_mul_assign_i32 : func := mkfunc ["self"; "rhs"] [
    (*478*) SCall [] "F::small_mul_assign" [AMut "self"; AVal "rhs"] ]
    [].

(* src/field/mod_e382_105.rs:483-485  MulAssign<i16>  F::mul_assign(i16) *)
Definition f_mul_assign_i16 : func := mkfunc ["self"; "rhs"] [
    (*484*) SCall [] "F::small_mul_assign" [AMut "self"; AVal (ECast I32 "rhs")] ]
    [].

(* src/field/mod_e382_105.rs:489-491  MulAssign<i8>  F::mul_assign(i8) *)
Definition f_mul_assign_i8 : func := mkfunc ["self"; "rhs"] [
    (*490*) SCall [] "F::small_mul_assign" [AMut "self"; AVal (ECast I32 "rhs")] ]
    [].

(* src/field/mod_e382_105.rs:495-917  MulAssign<&F>  F::mul_assign(&F) *)
Definition f_mul_assign_ref : func := mkfunc ["self"; "rhs"] [
    (*496*) "a0" <- ("self".[#0]) .& #0x0fffffff;
    (*497*) "a1" <- ("self".[#0]) .>> #28;
    (*498*) "a2" <- ("self".[#1]) .& #0x0fffffff;
    (*499*) "a3" <- ("self".[#1]) .>> #28;
    (*500*) "a4" <- ("self".[#2]) .& #0x0fffffff;
    (*501*) "a5" <- ("self".[#2]) .>> #28;
    (*502*) "a6" <- ("self".[#3]) .& #0x0fffffff;
    (*503*) "a7" <- ("self".[#3]) .>> #28;
    (*504*) "a8" <- ("self".[#4]) .& #0x0fffffff;
    (*505*) "a9" <- ("self".[#4]) .>> #28;
    (*506*) "a10" <- ("self".[#5]) .& #0x0fffffff;
    (*507*) "a11" <- ("self".[#5]) .>> #28;
    (*508*) "a12" <- ("self".[#6]) .& #0x0fffffff;
    (*509*) "a13" <- ("self".[#6]) .>> #28;
    (*511*) "b0" <- ("rhs".[#0]) .& #0x0fffffff;
    (*512*) "b1" <- ("rhs".[#0]) .>> #28;
    (*513*) "b2" <- ("rhs".[#1]) .& #0x0fffffff;
    (*514*) "b3" <- ("rhs".[#1]) .>> #28;
    (*515*) "b4" <- ("rhs".[#2]) .& #0x0fffffff;
    (*516*) "b5" <- ("rhs".[#2]) .>> #28;
    (*517*) "b6" <- ("rhs".[#3]) .& #0x0fffffff;
    (*518*) "b7" <- ("rhs".[#3]) .>> #28;
    (*519*) "b8" <- ("rhs".[#4]) .& #0x0fffffff;
    (*520*) "b9" <- ("rhs".[#4]) .>> #28;
    (*521*) "b10" <- ("rhs".[#5]) .& #0x0fffffff;
    (*522*) "b11" <- ("rhs".[#5]) .>> #28;
    (*523*) "b12" <- ("rhs".[#6]) .& #0x0fffffff;
    (*524*) "b13" <- ("rhs".[#6]) .>> #28;
    (*527*) "m_0_0" <- "a0" .* "b0";
    (*528*) "m_0_1" <- "a0" .* "b1";
    (*529*) "m_0_2" <- "a0" .* "b2";
    (*530*) "m_0_3" <- "a0" .* "b3";
    (*531*) "m_0_4" <- "a0" .* "b4";
    (*532*) "m_0_5" <- "a0" .* "b5";
    (*533*) "m_0_6" <- "a0" .* "b6";
    (*534*) "m_0_7" <- "a0" .* "b7";
    (*535*) "m_0_8" <- "a0" .* "b8";
    (*536*) "m_0_9" <- "a0" .* "b9";
    (*537*) "m_0_10" <- "a0" .* "b10";
    (*538*) "m_0_11" <- "a0" .* "b11";
    (*539*) "m_0_12" <- "a0" .* "b12";
    (*540*) "m_0_13" <- "a0" .* "b13";
    (*541*) "m_1_0" <- "a1" .* "b0";
    (*542*) "m_1_1" <- "a1" .* "b1";
    (*543*) "m_1_2" <- "a1" .* "b2";
    (*544*) "m_1_3" <- "a1" .* "b3";
    (*545*) "m_1_4" <- "a1" .* "b4";
    (*546*) "m_1_5" <- "a1" .* "b5";
    (*547*) "m_1_6" <- "a1" .* "b6";
    (*548*) "m_1_7" <- "a1" .* "b7";
    (*549*) "m_1_8" <- "a1" .* "b8";
    (*550*) "m_1_9" <- "a1" .* "b9";
    (*551*) "m_1_10" <- "a1" .* "b10";
    (*552*) "m_1_11" <- "a1" .* "b11";
    (*553*) "m_1_12" <- "a1" .* "b12";
    (*554*) "m_1_13" <- "a1" .* "b13";
    (*555*) "m_2_0" <- "a2" .* "b0";
    (*556*) "m_2_1" <- "a2" .* "b1";
    (*557*) "m_2_2" <- "a2" .* "b2";
    (*558*) "m_2_3" <- "a2" .* "b3";
    (*559*) "m_2_4" <- "a2" .* "b4";
    (*560*) "m_2_5" <- "a2" .* "b5";
    (*561*) "m_2_6" <- "a2" .* "b6";
    (*562*) "m_2_7" <- "a2" .* "b7";
    (*563*) "m_2_8" <- "a2" .* "b8";
    (*564*) "m_2_9" <- "a2" .* "b9";
    (*565*) "m_2_10" <- "a2" .* "b10";
    (*566*) "m_2_11" <- "a2" .* "b11";
    (*567*) "m_2_12" <- "a2" .* "b12";
    (*568*) "m_2_13" <- "a2" .* "b13";
    (*569*) "m_3_0" <- "a3" .* "b0";
    (*570*) "m_3_1" <- "a3" .* "b1";
    (*571*) "m_3_2" <- "a3" .* "b2";
    (*572*) "m_3_3" <- "a3" .* "b3";
    (*573*) "m_3_4" <- "a3" .* "b4";
    (*574*) "m_3_5" <- "a3" .* "b5";
    (*575*) "m_3_6" <- "a3" .* "b6";
    (*576*) "m_3_7" <- "a3" .* "b7";
    (*577*) "m_3_8" <- "a3" .* "b8";
    (*578*) "m_3_9" <- "a3" .* "b9";
    (*579*) "m_3_10" <- "a3" .* "b10";
    (*580*) "m_3_11" <- "a3" .* "b11";
    (*581*) "m_3_12" <- "a3" .* "b12";
    (*582*) "m_3_13" <- "a3" .* "b13";
    (*583*) "m_4_0" <- "a4" .* "b0";
    (*584*) "m_4_1" <- "a4" .* "b1";
    (*585*) "m_4_2" <- "a4" .* "b2";
    (*586*) "m_4_3" <- "a4" .* "b3";
    (*587*) "m_4_4" <- "a4" .* "b4";
    (*588*) "m_4_5" <- "a4" .* "b5";
    (*589*) "m_4_6" <- "a4" .* "b6";
    (*590*) "m_4_7" <- "a4" .* "b7";
    (*591*) "m_4_8" <- "a4" .* "b8";
    (*592*) "m_4_9" <- "a4" .* "b9";
    (*593*) "m_4_10" <- "a4" .* "b10";
    (*594*) "m_4_11" <- "a4" .* "b11";
    (*595*) "m_4_12" <- "a4" .* "b12";
    (*596*) "m_4_13" <- "a4" .* "b13";
    (*597*) "m_5_0" <- "a5" .* "b0";
    (*598*) "m_5_1" <- "a5" .* "b1";
    (*599*) "m_5_2" <- "a5" .* "b2";
    (*600*) "m_5_3" <- "a5" .* "b3";
    (*601*) "m_5_4" <- "a5" .* "b4";
    (*602*) "m_5_5" <- "a5" .* "b5";
    (*603*) "m_5_6" <- "a5" .* "b6";
    (*604*) "m_5_7" <- "a5" .* "b7";
    (*605*) "m_5_8" <- "a5" .* "b8";
    (*606*) "m_5_9" <- "a5" .* "b9";
    (*607*) "m_5_10" <- "a5" .* "b10";
    (*608*) "m_5_11" <- "a5" .* "b11";
    (*609*) "m_5_12" <- "a5" .* "b12";
    (*610*) "m_5_13" <- "a5" .* "b13";
    (*611*) "m_6_0" <- "a6" .* "b0";
    (*612*) "m_6_1" <- "a6" .* "b1";
    (*613*) "m_6_2" <- "a6" .* "b2";
    (*614*) "m_6_3" <- "a6" .* "b3";
    (*615*) "m_6_4" <- "a6" .* "b4";
    (*616*) "m_6_5" <- "a6" .* "b5";
    (*617*) "m_6_6" <- "a6" .* "b6";
    (*618*) "m_6_7" <- "a6" .* "b7";
    (*619*) "m_6_8" <- "a6" .* "b8";
    (*620*) "m_6_9" <- "a6" .* "b9";
    (*621*) "m_6_10" <- "a6" .* "b10";
    (*622*) "m_6_11" <- "a6" .* "b11";
    (*623*) "m_6_12" <- "a6" .* "b12";
    (*624*) "m_6_13" <- "a6" .* "b13";
    (*625*) "m_7_0" <- "a7" .* "b0";
    (*626*) "m_7_1" <- "a7" .* "b1";
    (*627*) "m_7_2" <- "a7" .* "b2";
    (*628*) "m_7_3" <- "a7" .* "b3";
    (*629*) "m_7_4" <- "a7" .* "b4";
    (*630*) "m_7_5" <- "a7" .* "b5";
    (*631*) "m_7_6" <- "a7" .* "b6";
    (*632*) "m_7_7" <- "a7" .* "b7";
    (*633*) "m_7_8" <- "a7" .* "b8";
    (*634*) "m_7_9" <- "a7" .* "b9";
    (*635*) "m_7_10" <- "a7" .* "b10";
    (*636*) "m_7_11" <- "a7" .* "b11";
    (*637*) "m_7_12" <- "a7" .* "b12";
    (*638*) "m_7_13" <- "a7" .* "b13";
    (*639*) "m_8_0" <- "a8" .* "b0";
    (*640*) "m_8_1" <- "a8" .* "b1";
    (*641*) "m_8_2" <- "a8" .* "b2";
    (*642*) "m_8_3" <- "a8" .* "b3";
    (*643*) "m_8_4" <- "a8" .* "b4";
    (*644*) "m_8_5" <- "a8" .* "b5";
    (*645*) "m_8_6" <- "a8" .* "b6";
    (*646*) "m_8_7" <- "a8" .* "b7";
    (*647*) "m_8_8" <- "a8" .* "b8";
    (*648*) "m_8_9" <- "a8" .* "b9";
    (*649*) "m_8_10" <- "a8" .* "b10";
    (*650*) "m_8_11" <- "a8" .* "b11";
    (*651*) "m_8_12" <- "a8" .* "b12";
    (*652*) "m_8_13" <- "a8" .* "b13";
    (*653*) "m_9_0" <- "a9" .* "b0";
    (*654*) "m_9_1" <- "a9" .* "b1";
    (*655*) "m_9_2" <- "a9" .* "b2";
    (*656*) "m_9_3" <- "a9" .* "b3";
    (*657*) "m_9_4" <- "a9" .* "b4";
    (*658*) "m_9_5" <- "a9" .* "b5";
    (*659*) "m_9_6" <- "a9" .* "b6";
    (*660*) "m_9_7" <- "a9" .* "b7";
    (*661*) "m_9_8" <- "a9" .* "b8";
    (*662*) "m_9_9" <- "a9" .* "b9";
    (*663*) "m_9_10" <- "a9" .* "b10";
    (*664*) "m_9_11" <- "a9" .* "b11";
    (*665*) "m_9_12" <- "a9" .* "b12";
    (*666*) "m_9_13" <- "a9" .* "b13";
    (*667*) "m_10_0" <- "a10" .* "b0";
    (*668*) "m_10_1" <- "a10" .* "b1";
    (*669*) "m_10_2" <- "a10" .* "b2";
    (*670*) "m_10_3" <- "a10" .* "b3";
    (*671*) "m_10_4" <- "a10" .* "b4";
    (*672*) "m_10_5" <- "a10" .* "b5";
    (*673*) "m_10_6" <- "a10" .* "b6";
    (*674*) "m_10_7" <- "a10" .* "b7";
    (*675*) "m_10_8" <- "a10" .* "b8";
    (*676*) "m_10_9" <- "a10" .* "b9";
    (*677*) "m_10_10" <- "a10" .* "b10";
    (*678*) "m_10_11" <- "a10" .* "b11";
    (*679*) "m_10_12" <- "a10" .* "b12";
    (*680*) "m_10_13" <- "a10" .* "b13";
    (*681*) "m_11_0" <- "a11" .* "b0";
    (*682*) "m_11_1" <- "a11" .* "b1";
    (*683*) "m_11_2" <- "a11" .* "b2";
    (*684*) "m_11_3" <- "a11" .* "b3";
    (*685*) "m_11_4" <- "a11" .* "b4";
    (*686*) "m_11_5" <- "a11" .* "b5";
    (*687*) "m_11_6" <- "a11" .* "b6";
    (*688*) "m_11_7" <- "a11" .* "b7";
    (*689*) "m_11_8" <- "a11" .* "b8";
    (*690*) "m_11_9" <- "a11" .* "b9";
    (*691*) "m_11_10" <- "a11" .* "b10";
    (*692*) "m_11_11" <- "a11" .* "b11";
    (*693*) "m_11_12" <- "a11" .* "b12";
    (*694*) "m_11_13" <- "a11" .* "b13";
    (*695*) "m_12_0" <- "a12" .* "b0";
    (*696*) "m_12_1" <- "a12" .* "b1";
    (*697*) "m_12_2" <- "a12" .* "b2";
    (*698*) "m_12_3" <- "a12" .* "b3";
    (*699*) "m_12_4" <- "a12" .* "b4";
    (*700*) "m_12_5" <- "a12" .* "b5";
    (*701*) "m_12_6" <- "a12" .* "b6";
    (*702*) "m_12_7" <- "a12" .* "b7";
    (*703*) "m_12_8" <- "a12" .* "b8";
    (*704*) "m_12_9" <- "a12" .* "b9";
    (*705*) "m_12_10" <- "a12" .* "b10";
    (*706*) "m_12_11" <- "a12" .* "b11";
    (*707*) "m_12_12" <- "a12" .* "b12";
    (*708*) "m_12_13" <- "a12" .* "b13";
    (*709*) "m_13_0" <- "a13" .* "b0";
    (*710*) "m_13_1" <- "a13" .* "b1";
    (*711*) "m_13_2" <- "a13" .* "b2";
    (*712*) "m_13_3" <- "a13" .* "b3";
    (*713*) "m_13_4" <- "a13" .* "b4";
    (*714*) "m_13_5" <- "a13" .* "b5";
    (*715*) "m_13_6" <- "a13" .* "b6";
    (*716*) "m_13_7" <- "a13" .* "b7";
    (*717*) "m_13_8" <- "a13" .* "b8";
    (*718*) "m_13_9" <- "a13" .* "b9";
    (*719*) "m_13_10" <- "a13" .* "b10";
    (*720*) "m_13_11" <- "a13" .* "b11";
    (*721*) "m_13_12" <- "a13" .* "b12";
    (*722*) "m_13_13" <- "a13" .* "b13";
    (*725*) "d0" <- ("m_0_0" .+ (("m_0_1" .& #0x0fffffff) .<< #28)) .+ (("m_1_0" .& #0x0fffffff) .<< #28);
    (*727*) "c0" <- "d0" .>> #56;
    (*728*) "d1" <- ((((((((("m_0_1" .>> #28) .+ "m_0_2") .+ (("m_0_3" .& #0x0fffffff) .<< #28)) .+ ("m_1_0" .>> #28)) .+ "m_1_1") .+ (("m_1_2" .& #0x0fffffff) .<< #28)) .+ "m_2_0") .+ (("m_2_1" .& #0x0fffffff) .<< #28)) .+ (("m_3_0" .& #0x0fffffff) .<< #28)) .+ "c0";
    (*732*) "c1" <- "d1" .>> #56;
    (*733*) "d2" <- ((((((((((((((("m_0_3" .>> #28) .+ "m_0_4") .+ (("m_0_5" .& #0x0fffffff) .<< #28)) .+ ("m_1_2" .>> #28)) .+ "m_1_3") .+ (("m_1_4" .& #0x0fffffff) .<< #28)) .+ ("m_2_1" .>> #28)) .+ "m_2_2") .+ (("m_2_3" .& #0x0fffffff) .<< #28)) .+ ("m_3_0" .>> #28)) .+ "m_3_1") .+ (("m_3_2" .& #0x0fffffff) .<< #28)) .+ "m_4_0") .+ (("m_4_1" .& #0x0fffffff) .<< #28)) .+ (("m_5_0" .& #0x0fffffff) .<< #28)) .+ "c1";
    (*739*) "c2" <- "d2" .>> #56;
    (*740*) "d3" <- ((((((((((((((((((((("m_0_5" .>> #28) .+ "m_0_6") .+ (("m_0_7" .& #0x0fffffff) .<< #28)) .+ ("m_1_4" .>> #28)) .+ "m_1_5") .+ (("m_1_6" .& #0x0fffffff) .<< #28)) .+ ("m_2_3" .>> #28)) .+ "m_2_4") .+ (("m_2_5" .& #0x0fffffff) .<< #28)) .+ ("m_3_2" .>> #28)) .+ "m_3_3") .+ (("m_3_4" .& #0x0fffffff) .<< #28)) .+ ("m_4_1" .>> #28)) .+ "m_4_2") .+ (("m_4_3" .& #0x0fffffff) .<< #28)) .+ ("m_5_0" .>> #28)) .+ "m_5_1") .+ (("m_5_2" .& #0x0fffffff) .<< #28)) .+ "m_6_0") .+ (("m_6_1" .& #0x0fffffff) .<< #28)) .+ (("m_7_0" .& #0x0fffffff) .<< #28)) .+ "c2";
    (*748*) "c3" <- "d3" .>> #56;
    (*749*) "d4" <- ((((((((((((((((((((((((((("m_0_7" .>> #28) .+ "m_0_8") .+ (("m_0_9" .& #0x0fffffff) .<< #28)) .+ ("m_1_6" .>> #28)) .+ "m_1_7") .+ (("m_1_8" .& #0x0fffffff) .<< #28)) .+ ("m_2_5" .>> #28)) .+ "m_2_6") .+ (("m_2_7" .& #0x0fffffff) .<< #28)) .+ ("m_3_4" .>> #28)) .+ "m_3_5") .+ (("m_3_6" .& #0x0fffffff) .<< #28)) .+ ("m_4_3" .>> #28)) .+ "m_4_4") .+ (("m_4_5" .& #0x0fffffff) .<< #28)) .+ ("m_5_2" .>> #28)) .+ "m_5_3") .+ (("m_5_4" .& #0x0fffffff) .<< #28)) .+ ("m_6_1" .>> #28)) .+ "m_6_2") .+ (("m_6_3" .& #0x0fffffff) .<< #28)) .+ ("m_7_0" .>> #28)) .+ "m_7_1") .+ (("m_7_2" .& #0x0fffffff) .<< #28)) .+ "m_8_0") .+ (("m_8_1" .& #0x0fffffff) .<< #28)) .+ (("m_9_0" .& #0x0fffffff) .<< #28)) .+ "c3";
    (*759*) "c4" <- "d4" .>> #56;
    (*760*) "d5" <- ((((((((((((((((((((((((((((((((("m_0_9" .>> #28) .+ "m_0_10") .+ (("m_0_11" .& #0x0fffffff) .<< #28)) .+ ("m_1_8" .>> #28)) .+ "m_1_9") .+ (("m_1_10" .& #0x0fffffff) .<< #28)) .+ ("m_2_7" .>> #28)) .+ "m_2_8") .+ (("m_2_9" .& #0x0fffffff) .<< #28)) .+ ("m_3_6" .>> #28)) .+ "m_3_7") .+ (("m_3_8" .& #0x0fffffff) .<< #28)) .+ ("m_4_5" .>> #28)) .+ "m_4_6") .+ (("m_4_7" .& #0x0fffffff) .<< #28)) .+ ("m_5_4" .>> #28)) .+ "m_5_5") .+ (("m_5_6" .& #0x0fffffff) .<< #28)) .+ ("m_6_3" .>> #28)) .+ "m_6_4") .+ (("m_6_5" .& #0x0fffffff) .<< #28)) .+ ("m_7_2" .>> #28)) .+ "m_7_3") .+ (("m_7_4" .& #0x0fffffff) .<< #28)) .+ ("m_8_1" .>> #28)) .+ "m_8_2") .+ (("m_8_3" .& #0x0fffffff) .<< #28)) .+ ("m_9_0" .>> #28)) .+ "m_9_1") .+ (("m_9_2" .& #0x0fffffff) .<< #28)) .+ "m_10_0") .+ (("m_10_1" .& #0x0fffffff) .<< #28)) .+ (("m_11_0" .& #0x0fffffff) .<< #28)) .+ "c4";
    (*772*) "c5" <- "d5" .>> #56;
    (*773*) "d6" <- ((((((((((((((((((((((((((((((((((((((("m_0_11" .>> #28) .+ "m_0_12") .+ (("m_0_13" .& #0x0fffffff) .<< #28)) .+ ("m_1_10" .>> #28)) .+ "m_1_11") .+ (("m_1_12" .& #0x0fffffff) .<< #28)) .+ ("m_2_9" .>> #28)) .+ "m_2_10") .+ (("m_2_11" .& #0x0fffffff) .<< #28)) .+ ("m_3_8" .>> #28)) .+ "m_3_9") .+ (("m_3_10" .& #0x0fffffff) .<< #28)) .+ ("m_4_7" .>> #28)) .+ "m_4_8") .+ (("m_4_9" .& #0x0fffffff) .<< #28)) .+ ("m_5_6" .>> #28)) .+ "m_5_7") .+ (("m_5_8" .& #0x0fffffff) .<< #28)) .+ ("m_6_5" .>> #28)) .+ "m_6_6") .+ (("m_6_7" .& #0x0fffffff) .<< #28)) .+ ("m_7_4" .>> #28)) .+ "m_7_5") .+ (("m_7_6" .& #0x0fffffff) .<< #28)) .+ ("m_8_3" .>> #28)) .+ "m_8_4") .+ (("m_8_5" .& #0x0fffffff) .<< #28)) .+ ("m_9_2" .>> #28)) .+ "m_9_3") .+ (("m_9_4" .& #0x0fffffff) .<< #28)) .+ ("m_10_1" .>> #28)) .+ "m_10_2") .+ (("m_10_3" .& #0x0fffffff) .<< #28)) .+ ("m_11_0" .>> #28)) .+ "m_11_1") .+ (("m_11_2" .& #0x0fffffff) .<< #28)) .+ "m_12_0") .+ (("m_12_1" .& #0x0fffffff) .<< #28)) .+ (("m_13_0" .& #0x0fffffff) .<< #28)) .+ "c5";
    (*787*) "c6" <- "d6" .>> #56;
    (*788*) "d7" <- ((((((((((((((((((((((((((((((((((((((("m_0_13" .>> #28) .+ ("m_1_12" .>> #28)) .+ "m_1_13") .+ ("m_2_11" .>> #28)) .+ "m_2_12") .+ (("m_2_13" .& #0x0fffffff) .<< #28)) .+ ("m_3_10" .>> #28)) .+ "m_3_11") .+ (("m_3_12" .& #0x0fffffff) .<< #28)) .+ ("m_4_9" .>> #28)) .+ "m_4_10") .+ (("m_4_11" .& #0x0fffffff) .<< #28)) .+ ("m_5_8" .>> #28)) .+ "m_5_9") .+ (("m_5_10" .& #0x0fffffff) .<< #28)) .+ ("m_6_7" .>> #28)) .+ "m_6_8") .+ (("m_6_9" .& #0x0fffffff) .<< #28)) .+ ("m_7_6" .>> #28)) .+ "m_7_7") .+ (("m_7_8" .& #0x0fffffff) .<< #28)) .+ ("m_8_5" .>> #28)) .+ "m_8_6") .+ (("m_8_7" .& #0x0fffffff) .<< #28)) .+ ("m_9_4" .>> #28)) .+ "m_9_5") .+ (("m_9_6" .& #0x0fffffff) .<< #28)) .+ ("m_10_3" .>> #28)) .+ "m_10_4") .+ (("m_10_5" .& #0x0fffffff) .<< #28)) .+ ("m_11_2" .>> #28)) .+ "m_11_3") .+ (("m_11_4" .& #0x0fffffff) .<< #28)) .+ ("m_12_1" .>> #28)) .+ "m_12_2") .+ (("m_12_3" .& #0x0fffffff) .<< #28)) .+ ("m_13_0" .>> #28)) .+ "m_13_1") .+ (("m_13_2" .& #0x0fffffff) .<< #28)) .+ "c6";
    (*803*) "c7" <- "d7" .>> #56;
    (*804*) "d8" <- ((((((((((((((((((((((((((((((((("m_2_13" .>> #28) .+ ("m_3_12" .>> #28)) .+ "m_3_13") .+ ("m_4_11" .>> #28)) .+ "m_4_12") .+ (("m_4_13" .& #0x0fffffff) .<< #28)) .+ ("m_5_10" .>> #28)) .+ "m_5_11") .+ (("m_5_12" .& #0x0fffffff) .<< #28)) .+ ("m_6_9" .>> #28)) .+ "m_6_10") .+ (("m_6_11" .& #0x0fffffff) .<< #28)) .+ ("m_7_8" .>> #28)) .+ "m_7_9") .+ (("m_7_10" .& #0x0fffffff) .<< #28)) .+ ("m_8_7" .>> #28)) .+ "m_8_8") .+ (("m_8_9" .& #0x0fffffff) .<< #28)) .+ ("m_9_6" .>> #28)) .+ "m_9_7") .+ (("m_9_8" .& #0x0fffffff) .<< #28)) .+ ("m_10_5" .>> #28)) .+ "m_10_6") .+ (("m_10_7" .& #0x0fffffff) .<< #28)) .+ ("m_11_4" .>> #28)) .+ "m_11_5") .+ (("m_11_6" .& #0x0fffffff) .<< #28)) .+ ("m_12_3" .>> #28)) .+ "m_12_4") .+ (("m_12_5" .& #0x0fffffff) .<< #28)) .+ ("m_13_2" .>> #28)) .+ "m_13_3") .+ (("m_13_4" .& #0x0fffffff) .<< #28)) .+ "c7";
    (*817*) "c8" <- "d8" .>> #56;
    (*818*) "d9" <- ((((((((((((((((((((((((((("m_4_13" .>> #28) .+ ("m_5_12" .>> #28)) .+ "m_5_13") .+ ("m_6_11" .>> #28)) .+ "m_6_12") .+ (("m_6_13" .& #0x0fffffff) .<< #28)) .+ ("m_7_10" .>> #28)) .+ "m_7_11") .+ (("m_7_12" .& #0x0fffffff) .<< #28)) .+ ("m_8_9" .>> #28)) .+ "m_8_10") .+ (("m_8_11" .& #0x0fffffff) .<< #28)) .+ ("m_9_8" .>> #28)) .+ "m_9_9") .+ (("m_9_10" .& #0x0fffffff) .<< #28)) .+ ("m_10_7" .>> #28)) .+ "m_10_8") .+ (("m_10_9" .& #0x0fffffff) .<< #28)) .+ ("m_11_6" .>> #28)) .+ "m_11_7") .+ (("m_11_8" .& #0x0fffffff) .<< #28)) .+ ("m_12_5" .>> #28)) .+ "m_12_6") .+ (("m_12_7" .& #0x0fffffff) .<< #28)) .+ ("m_13_4" .>> #28)) .+ "m_13_5") .+ (("m_13_6" .& #0x0fffffff) .<< #28)) .+ "c8";
    (*829*) "c9" <- "d9" .>> #56;
    (*830*) "d10" <- ((((((((((((((((((((("m_6_13" .>> #28) .+ ("m_7_12" .>> #28)) .+ "m_7_13") .+ ("m_8_11" .>> #28)) .+ "m_8_12") .+ (("m_8_13" .& #0x0fffffff) .<< #28)) .+ ("m_9_10" .>> #28)) .+ "m_9_11") .+ (("m_9_12" .& #0x0fffffff) .<< #28)) .+ ("m_10_9" .>> #28)) .+ "m_10_10") .+ (("m_10_11" .& #0x0fffffff) .<< #28)) .+ ("m_11_8" .>> #28)) .+ "m_11_9") .+ (("m_11_10" .& #0x0fffffff) .<< #28)) .+ ("m_12_7" .>> #28)) .+ "m_12_8") .+ (("m_12_9" .& #0x0fffffff) .<< #28)) .+ ("m_13_6" .>> #28)) .+ "m_13_7") .+ (("m_13_8" .& #0x0fffffff) .<< #28)) .+ "c9";
    (*839*) "c10" <- "d10" .>> #56;
    (*840*) "d11" <- ((((((((((((((("m_8_13" .>> #28) .+ ("m_9_12" .>> #28)) .+ "m_9_13") .+ ("m_10_11" .>> #28)) .+ "m_10_12") .+ (("m_10_13" .& #0x0fffffff) .<< #28)) .+ ("m_11_10" .>> #28)) .+ "m_11_11") .+ (("m_11_12" .& #0x0fffffff) .<< #28)) .+ ("m_12_9" .>> #28)) .+ "m_12_10") .+ (("m_12_11" .& #0x0fffffff) .<< #28)) .+ ("m_13_8" .>> #28)) .+ "m_13_9") .+ (("m_13_10" .& #0x0fffffff) .<< #28)) .+ "c10";
    (*847*) "c11" <- "d11" .>> #56;
    (*848*) "d12" <- ((((((((("m_10_13" .>> #28) .+ ("m_11_12" .>> #28)) .+ "m_11_13") .+ ("m_12_11" .>> #28)) .+ "m_12_12") .+ (("m_12_13" .& #0x0fffffff) .<< #28)) .+ ("m_13_10" .>> #28)) .+ "m_13_11") .+ (("m_13_12" .& #0x0fffffff) .<< #28)) .+ "c11";
    (*853*) "c12" <- "d12" .>> #56;
    (*854*) "d13" <- ((("m_12_13" .>> #28) .+ ("m_13_12" .>> #28)) .+ "m_13_13") .+ "c12";
    (*861*) "l0_0" <- "d0" .& #0x00ffffffffffffff;
    (*862*) "l1_0" <- "d1" .& #0x00ffffffffffffff;
    (*863*) "l2_0" <- "d2" .& #0x00ffffffffffffff;
    (*864*) "l3_0" <- "d3" .& #0x00ffffffffffffff;
    (*865*) "l4_0" <- "d4" .& #0x00ffffffffffffff;
    (*866*) "l5_0" <- "d5" .& #0x00ffffffffffffff;
    (*867*) "l6_0" <- "d6" .& #0x00003fffffffffff;
    (*870*) "h0_0" <- (("d6" .& #0x00ffffffffffffff) .>> #46) .| (("d7" .& #0x00003fffffffffff) .<< #10);
    (*872*) "h1_0" <- (("d7" .& #0x00ffffffffffffff) .>> #46) .| (("d8" .& #0x00003fffffffffff) .<< #10);
    (*874*) "h2_0" <- (("d8" .& #0x00ffffffffffffff) .>> #46) .| (("d9" .& #0x00003fffffffffff) .<< #10);
    (*876*) "h3_0" <- (("d9" .& #0x00ffffffffffffff) .>> #46) .| (("d10" .& #0x00003fffffffffff) .<< #10);
    (*878*) "h4_0" <- (("d10" .& #0x00ffffffffffffff) .>> #46) .| (("d11" .& #0x00003fffffffffff) .<< #10);
    (*880*) "h5_0" <- (("d11" .& #0x00ffffffffffffff) .>> #46) .| (("d12" .& #0x00003fffffffffff) .<< #10);
    (*882*) "h6_0" <- (("d12" .& #0x00ffffffffffffff) .>> #46) .| ("d13" .<< #10);
    (*886*) "hc0_0" <- "h0_0" .* (EInt C_VAL);
    (*887*) "hc1_0" <- "h1_0" .* (EInt C_VAL);
    (*888*) "hc2_0" <- "h2_0" .* (EInt C_VAL);
    (*889*) "hc3_0" <- "h3_0" .* (EInt C_VAL);
    (*890*) "hc4_0" <- "h4_0" .* (EInt C_VAL);
    (*891*) "hc5_0" <- "h5_0" .* (EInt C_VAL);
    (*892*) "hc6_0" <- "h6_0" .* (EInt C_VAL);
    (*895*) "kin_0" <- "hc6_0" .>> #46;
    (*896*) "s0_0" <- ("l0_0" .+ "hc0_0") .+ ("kin_0" .* (EInt C_VAL));
    (*897*) "k0_0" <- "s0_0" .>> #56;
    (*898*) "s1_0" <- ("l1_0" .+ "hc1_0") .+ "k0_0";
    (*899*) "k1_0" <- "s1_0" .>> #56;
    (*900*) "s2_0" <- ("l2_0" .+ "hc2_0") .+ "k1_0";
    (*901*) "k2_0" <- "s2_0" .>> #56;
    (*902*) "s3_0" <- ("l3_0" .+ "hc3_0") .+ "k2_0";
    (*903*) "k3_0" <- "s3_0" .>> #56;
    (*904*) "s4_0" <- ("l4_0" .+ "hc4_0") .+ "k3_0";
    (*905*) "k4_0" <- "s4_0" .>> #56;
    (*906*) "s5_0" <- ("l5_0" .+ "hc5_0") .+ "k4_0";
    (*907*) "k5_0" <- "s5_0" .>> #56;
    (*908*) "s6_0" <- ("l6_0" .+ ("hc6_0" .& #0x00003fffffffffff)) .+ "k5_0";
    (*910*) SSet "self" #0 ("s0_0" .& #0x00ffffffffffffff);
    (*911*) SSet "self" #1 ("s1_0" .& #0x00ffffffffffffff);
    (*912*) SSet "self" #2 ("s2_0" .& #0x00ffffffffffffff);
    (*913*) SSet "self" #3 ("s3_0" .& #0x00ffffffffffffff);
    (*914*) SSet "self" #4 ("s4_0" .& #0x00ffffffffffffff);
    (*915*) SSet "self" #5 ("s5_0" .& #0x00ffffffffffffff);
    (*916*) SSet "self" #6 ("s6_0") ]
    [].

(* src/field/mod_e382_105.rs:921-923  MulAssign<F>  F::mul_assign(F) *)
Definition f_mul_assign_val : func := mkfunc ["self"; "rhs"] [
    (*922*) SCall [] "F::mul_assign(&F)" [AMut "self"; AVal "rhs"] ]
    [].

(* src/field/mod_e382_105.rs:929-931  Mul<&F>  i32::mul(&F) *)
Definition f_i32_mul_ref : func := mkfunc ["self"; "a"] [
    (*930*) SCall ["%1"] "F::small_mul" [AVal "a"; AVal "self"] ]
    [EVar "%1"].

(* src/field/mod_e382_105.rs:937-939  Mul<&F>  i16::mul(&F) *)
Definition f_i16_mul_ref : func := mkfunc ["self"; "a"] [
    (*938*) SCall ["%1"] "F::small_mul" [AVal "a"; AVal (ECast I32 "self")] ]
    [EVar "%1"].

(* src/field/mod_e382_105.rs:945-947  Mul<&F>  i8::mul(&F) *)
Definition f_i8_mul_ref : func := mkfunc ["self"; "a"] [
    (*946*) SCall ["%1"] "F::small_mul" [AVal "a"; AVal (ECast I32 "self")] ]
    [EVar "%1"].

(* src/field/mod_e382_105.rs:953-955  Mul<i32>  (&F)::mul(i32) *)
Definition f_ref_mul_i32 : func := mkfunc ["self"; "a"] [
    (*954*) SCall ["%1"] "F::small_mul" [AVal "self"; AVal "a"] ]
    [EVar "%1"].

(* src/field/mod_e382_105.rs:961-963  Mul<i16>  (&F)::mul(i16) *)
Definition f_ref_mul_i16 : func := mkfunc ["self"; "a"] [
    (*962*) SCall ["%1"] "F::small_mul" [AVal "self"; AVal (ECast I32 "a")] ]
    [EVar "%1"].

(* src/field/mod_e382_105.rs:969-971  Mul<i8>  (&F)::mul(i8) *)
Definition f_ref_mul_i8 : func := mkfunc ["self"; "a"] [
    (*970*) SCall ["%1"] "F::small_mul" [AVal "self"; AVal (ECast I32 "a")] ]
    [EVar "%1"].

(* src/field/mod_e382_105.rs:977-979  Mul<i32>  F::mul(i32) *)
Definition f_mul_i32 : func := mkfunc ["self"; "a"] [
    (*978*) SCall ["%1"] "(&F)::mul(i32)" [AVal "self"; AVal "a"] ]
    [EVar "%1"].

(* src/field/mod_e382_105.rs:985-987  Mul<i16>  F::mul(i16) *)
Definition f_mul_i16 : func := mkfunc ["self"; "a"] [
    (*986*) SCall ["%1"] "(&F)::mul(i16)" [AVal "self"; AVal "a"] ]
    [EVar "%1"].

(* src/field/mod_e382_105.rs:993-995  Mul<i8>  F::mul(i8) *)
Definition f_mul_i8 : func := mkfunc ["self"; "a"] [
    (*994*) SCall ["%1"] "(&F)::mul(i8)" [AVal "self"; AVal "a"] ]
    [EVar "%1"].

(* src/field/mod_e382_105.rs:1001-1005  Mul<&F>  (&F)::mul(&F) *)
Definition f_ref_mul_ref : func := mkfunc ["self"; "a"] [
    (*1002*) "out" <- "self";
    (*1003*) SCall [] "F::mul_assign(&F)" [AMut "out"; AVal "a"] ]
    [EVar "out"].

(* src/field/mod_e382_105.rs:1011-1013  Mul<F>  F::mul(F) *)
Definition f_mul_val : func := mkfunc ["self"; "a"] [
    (*1012*) SCall ["%1"] "(&F)::mul(&F)" [AVal "self"; AVal "a"] ]
    [EVar "%1"].

(* src/field/mod_e382_105.rs:1017-1025  Rand  F::rand *)
Definition f_rand : func := mkfunc ["rng"] [
    (*1018*) "out" <- ERep #0 7;
    (*1020*) SFor "i" #0 #7 [
      (*1021*) SGenRange "%1" "rng" #0 ((ELit MODULUS).["i"]);
      (*1021*) SSet "out" "i" ("%1") ] ]
    [EVar "out"].

(* src/field/mod_e382_105.rs:1029-1078  Pack  F::unpack *)
Definition f_unpack : func := mkfunc ["self"; "bytes"] [
    (*1030*) SSet "self" #0 ((((((((ECast I64 ("bytes".[#0])) .& #0x00000000000000ff) .| (((ECast I64 ("bytes".[#1])) .<< #8) .& #0x000000000000ff00)) .| (((ECast I64 ("bytes".[#2])) .<< #16) .& #0x0000000000ff0000)) .| (((ECast I64 ("bytes".[#3])) .<< #24) .& #0x00000000ff000000)) .| (((ECast I64 ("bytes".[#4])) .<< #32) .& #0x000000ff00000000)) .| (((ECast I64 ("bytes".[#5])) .<< #40) .& #0x0000ff0000000000)) .| (((ECast I64 ("bytes".[#6])) .<< #48) .& #0x00ff000000000000));
    (*1037*) SSet "self" #1 ((((((((ECast I64 ("bytes".[#7])) .& #0x00000000000000ff) .| (((ECast I64 ("bytes".[#8])) .<< #8) .& #0x000000000000ff00)) .| (((ECast I64 ("bytes".[#9])) .<< #16) .& #0x0000000000ff0000)) .| (((ECast I64 ("bytes".[#10])) .<< #24) .& #0x00000000ff000000)) .| (((ECast I64 ("bytes".[#11])) .<< #32) .& #0x000000ff00000000)) .| (((ECast I64 ("bytes".[#12])) .<< #40) .& #0x0000ff0000000000)) .| (((ECast I64 ("bytes".[#13])) .<< #48) .& #0x00ff000000000000));
    (*1044*) SSet "self" #2 ((((((((ECast I64 ("bytes".[#14])) .& #0x00000000000000ff) .| (((ECast I64 ("bytes".[#15])) .<< #8) .& #0x000000000000ff00)) .| (((ECast I64 ("bytes".[#16])) .<< #16) .& #0x0000000000ff0000)) .| (((ECast I64 ("bytes".[#17])) .<< #24) .& #0x00000000ff000000)) .| (((ECast I64 ("bytes".[#18])) .<< #32) .& #0x000000ff00000000)) .| (((ECast I64 ("bytes".[#19])) .<< #40) .& #0x0000ff0000000000)) .| (((ECast I64 ("bytes".[#20])) .<< #48) .& #0x00ff000000000000));
    (*1051*) SSet "self" #3 ((((((((ECast I64 ("bytes".[#21])) .& #0x00000000000000ff) .| (((ECast I64 ("bytes".[#22])) .<< #8) .& #0x000000000000ff00)) .| (((ECast I64 ("bytes".[#23])) .<< #16) .& #0x0000000000ff0000)) .| (((ECast I64 ("bytes".[#24])) .<< #24) .& #0x00000000ff000000)) .| (((ECast I64 ("bytes".[#25])) .<< #32) .& #0x000000ff00000000)) .| (((ECast I64 ("bytes".[#26])) .<< #40) .& #0x0000ff0000000000)) .| (((ECast I64 ("bytes".[#27])) .<< #48) .& #0x00ff000000000000));
    (*1058*) SSet "self" #4 ((((((((ECast I64 ("bytes".[#28])) .& #0x00000000000000ff) .| (((ECast I64 ("bytes".[#29])) .<< #8) .& #0x000000000000ff00)) .| (((ECast I64 ("bytes".[#30])) .<< #16) .& #0x0000000000ff0000)) .| (((ECast I64 ("bytes".[#31])) .<< #24) .& #0x00000000ff000000)) .| (((ECast I64 ("bytes".[#32])) .<< #32) .& #0x000000ff00000000)) .| (((ECast I64 ("bytes".[#33])) .<< #40) .& #0x0000ff0000000000)) .| (((ECast I64 ("bytes".[#34])) .<< #48) .& #0x00ff000000000000));
    (*1065*) SSet "self" #5 ((((((((ECast I64 ("bytes".[#35])) .& #0x00000000000000ff) .| (((ECast I64 ("bytes".[#36])) .<< #8) .& #0x000000000000ff00)) .| (((ECast I64 ("bytes".[#37])) .<< #16) .& #0x0000000000ff0000)) .| (((ECast I64 ("bytes".[#38])) .<< #24) .& #0x00000000ff000000)) .| (((ECast I64 ("bytes".[#39])) .<< #32) .& #0x000000ff00000000)) .| (((ECast I64 ("bytes".[#40])) .<< #40) .& #0x0000ff0000000000)) .| (((ECast I64 ("bytes".[#41])) .<< #48) .& #0x00ff000000000000));
    (*1072*) SSet "self" #6 (((((((ECast I64 ("bytes".[#42])) .& #0x00000000000000ff) .| (((ECast I64 ("bytes".[#43])) .<< #8) .& #0x000000000000ff00)) .| (((ECast I64 ("bytes".[#44])) .<< #16) .& #0x0000000000ff0000)) .| (((ECast I64 ("bytes".[#45])) .<< #24) .& #0x00000000ff000000)) .| (((ECast I64 ("bytes".[#46])) .<< #32) .& #0x000000ff00000000)) .| (((ECast I64 ("bytes".[#47])) .<< #40) .& #0x00003f0000000000)) ]
    [].

(* src/field/mod_e382_105.rs:1080-1084  Pack  F::unpacked *)
Definition f_unpacked : func := mkfunc ["bytes"] [
    (*1081*) "out" <- ELit ZERO;
    (*1082*) SCall [] "F::unpack" [AMut "out"; AVal "bytes"] ]
    [EVar "out"].

(* src/field/mod_e382_105.rs:1086-1089  Pack  F::pack *)
Definition f_pack : func := mkfunc ["self"; "bytes"] [
    (*1087*) SCall [] "F::normalize" [AMut "self"];
    (*1088*) SCall [] "F::pack_normalized" [AVal "self"; AMut "bytes"] ]
    [].

(* src/field/mod_e382_105.rs:1091-1140  Pack  F::pack_normalized *)
Definition f_pack_normalized : func := mkfunc ["self"; "bytes"] [
    (*1092*) SSet "bytes" #0 (ECast U8 (("self".[#0]) .& #255));
    (*1093*) SSet "bytes" #1 (ECast U8 ((("self".[#0]) .>> #8) .& #255));
    (*1094*) SSet "bytes" #2 (ECast U8 ((("self".[#0]) .>> #16) .& #255));
    (*1095*) SSet "bytes" #3 (ECast U8 ((("self".[#0]) .>> #24) .& #255));
    (*1096*) SSet "bytes" #4 (ECast U8 ((("self".[#0]) .>> #32) .& #255));
    (*1097*) SSet "bytes" #5 (ECast U8 ((("self".[#0]) .>> #40) .& #255));
    (*1098*) SSet "bytes" #6 (ECast U8 ((("self".[#0]) .>> #48) .& #255));
    (*1099*) SSet "bytes" #7 (ECast U8 (("self".[#1]) .& #255));
    (*1100*) SSet "bytes" #8 (ECast U8 ((("self".[#1]) .>> #8) .& #255));
    (*1101*) SSet "bytes" #9 (ECast U8 ((("self".[#1]) .>> #16) .& #255));
    (*1102*) SSet "bytes" #10 (ECast U8 ((("self".[#1]) .>> #24) .& #255));
    (*1103*) SSet "bytes" #11 (ECast U8 ((("self".[#1]) .>> #32) .& #255));
    (*1104*) SSet "bytes" #12 (ECast U8 ((("self".[#1]) .>> #40) .& #255));
    (*1105*) SSet "bytes" #13 (ECast U8 ((("self".[#1]) .>> #48) .& #255));
    (*1106*) SSet "bytes" #14 (ECast U8 (("self".[#2]) .& #255));
    (*1107*) SSet "bytes" #15 (ECast U8 ((("self".[#2]) .>> #8) .& #255));
    (*1108*) SSet "bytes" #16 (ECast U8 ((("self".[#2]) .>> #16) .& #255));
    (*1109*) SSet "bytes" #17 (ECast U8 ((("self".[#2]) .>> #24) .& #255));
    (*1110*) SSet "bytes" #18 (ECast U8 ((("self".[#2]) .>> #32) .& #255));
    (*1111*) SSet "bytes" #19 (ECast U8 ((("self".[#2]) .>> #40) .& #255));
    (*1112*) SSet "bytes" #20 (ECast U8 ((("self".[#2]) .>> #48) .& #255));
    (*1113*) SSet "bytes" #21 (ECast U8 (("self".[#3]) .& #255));
    (*1114*) SSet "bytes" #22 (ECast U8 ((("self".[#3]) .>> #8) .& #255));
    (*1115*) SSet "bytes" #23 (ECast U8 ((("self".[#3]) .>> #16) .& #255));
    (*1116*) SSet "bytes" #24 (ECast U8 ((("self".[#3]) .>> #24) .& #255));
    (*1117*) SSet "bytes" #25 (ECast U8 ((("self".[#3]) .>> #32) .& #255));
    (*1118*) SSet "bytes" #26 (ECast U8 ((("self".[#3]) .>> #40) .& #255));
    (*1119*) SSet "bytes" #27 (ECast U8 ((("self".[#3]) .>> #48) .& #255));
    (*1120*) SSet "bytes" #28 (ECast U8 (("self".[#4]) .& #255));
    (*1121*) SSet "bytes" #29 (ECast U8 ((("self".[#4]) .>> #8) .& #255));
    (*1122*) SSet "bytes" #30 (ECast U8 ((("self".[#4]) .>> #16) .& #255));
    (*1123*) SSet "bytes" #31 (ECast U8 ((("self".[#4]) .>> #24) .& #255));
    (*1124*) SSet "bytes" #32 (ECast U8 ((("self".[#4]) .>> #32) .& #255));
    (*1125*) SSet "bytes" #33 (ECast U8 ((("self".[#4]) .>> #40) .& #255));
    (*1126*) SSet "bytes" #34 (ECast U8 ((("self".[#4]) .>> #48) .& #255));
    (*1127*) SSet "bytes" #35 (ECast U8 (("self".[#5]) .& #255));
    (*1128*) SSet "bytes" #36 (ECast U8 ((("self".[#5]) .>> #8) .& #255));
    (*1129*) SSet "bytes" #37 (ECast U8 ((("self".[#5]) .>> #16) .& #255));
    (*1130*) SSet "bytes" #38 (ECast U8 ((("self".[#5]) .>> #24) .& #255));
    (*1131*) SSet "bytes" #39 (ECast U8 ((("self".[#5]) .>> #32) .& #255));
    (*1132*) SSet "bytes" #40 (ECast U8 ((("self".[#5]) .>> #40) .& #255));
    (*1133*) SSet "bytes" #41 (ECast U8 ((("self".[#5]) .>> #48) .& #255));
    (*1134*) SSet "bytes" #42 (ECast U8 (("self".[#6]) .& #255));
    (*1135*) SSet "bytes" #43 (ECast U8 ((("self".[#6]) .>> #8) .& #255));
    (*1136*) SSet "bytes" #44 (ECast U8 ((("self".[#6]) .>> #16) .& #255));
    (*1137*) SSet "bytes" #45 (ECast U8 ((("self".[#6]) .>> #24) .& #255));
    (*1138*) SSet "bytes" #46 (ECast U8 ((("self".[#6]) .>> #32) .& #255));
    (*1139*) SSet "bytes" #47 (ECast U8 ((("self".[#6]) .>> #40) .& #63)) ]
    [].

(* src/field/mod_e382_105.rs:1142-1144  Pack  F::nbytes *)
Definition f_nbytes : func := mkfunc [] [
 ]
    [#48].

(* src/field/mod_e382_105.rs:1148-1152  Normalize  F::normalize *)
Definition f_normalize : func := mkfunc ["self"] [
    (*1149*) SCall ["plusc"] "(&F)::add(i32)" [AVal "self"; AVal (ECast I32 (EInt C_VAL))];
    (*1150*) SCall ["offset"] "(&F)::mul(i32)" [AVal (ELit MODULUS); AVal (ECast I32 (carry_out "plusc"))];
    (*1151*) SCall [] "F::sub_assign(&F)" [AMut "self"; AVal "offset"] ]
    [].

(* src/field/mod_e382_105.rs:1156-1170  NormalizeEq  F::normalize_self_eq *)
Definition f_normalize_self_eq : func := mkfunc ["self"; "other"] [
    (*1157*) "are_equal" <- #1;
    (*1159*) SCall [] "F::normalize" [AMut "self"];
    (*1161*) "are_equal" <- "are_equal" .& (EEq ("self".[#0]) ("other".[#0]));
    (*1162*) "are_equal" <- "are_equal" .& (EEq ("self".[#1]) ("other".[#1]));
    (*1163*) "are_equal" <- "are_equal" .& (EEq ("self".[#2]) ("other".[#2]));
    (*1164*) "are_equal" <- "are_equal" .& (EEq ("self".[#3]) ("other".[#3]));
    (*1165*) "are_equal" <- "are_equal" .& (EEq ("self".[#4]) ("other".[#4]));
    (*1166*) "are_equal" <- "are_equal" .& (EEq ("self".[#5]) ("other".[#5]));
    (*1167*) "are_equal" <- "are_equal" .& (EEq ("self".[#6]) ("other".[#6])) ]
    [EVar "are_equal"].

(* src/field/mod_e382_105.rs:1172-1175  NormalizeEq  F::normalize_eq *)
Definition f_normalize_eq : func := mkfunc ["self"; "other"] [
    (*1173*) SCall [] "F::normalize" [AMut "other"];
    (*1174*) SCall ["%1"] "F::normalize_self_eq" [AMut "self"; AVal "other"] ]
    [EVar "%1"].

(* src/field/mod_e382_105.rs:1179-1196  PrimeFieldMask  Mask::fill *)
Definition f_Mask_fill : func := mkfunc ["self"; "bit"] [
    (*1180*) "mask" <- ECast I64 "bit";
    (*1182*) "mask" <- "mask" .| ("mask" .<< #1);
    (*1183*) "mask" <- "mask" .| ("mask" .<< #2);
    (*1184*) "mask" <- "mask" .| ("mask" .<< #4);
    (*1185*) "mask" <- "mask" .| ("mask" .<< #8);
    (*1186*) "mask" <- "mask" .| ("mask" .<< #16);
    (*1187*) "mask" <- "mask" .| ("mask" .<< #32);
    (*1189*) SSet "self" #0 ("mask");
    (*1190*) SSet "self" #1 ("mask");
    (*1191*) SSet "self" #2 ("mask");
    (*1192*) SSet "self" #3 ("mask");
    (*1193*) SSet "self" #4 ("mask");
    (*1194*) SSet "self" #5 ("mask");
    (*1195*) SSet "self" #6 ("mask") ]
    [].

(* src/field/mod_e382_105.rs:1198-1209  PrimeFieldMask  Mask::filled *)
Definition f_Mask_filled : func := mkfunc ["bit"] [
    (*1199*) "mask" <- ECast I64 "bit";
    (*1201*) "mask" <- "mask" .| ("mask" .<< #1);
    (*1202*) "mask" <- "mask" .| ("mask" .<< #2);
    (*1203*) "mask" <- "mask" .| ("mask" .<< #4);
    (*1204*) "mask" <- "mask" .| ("mask" .<< #8);
    (*1205*) "mask" <- "mask" .| ("mask" .<< #16);
    (*1206*) "mask" <- "mask" .| ("mask" .<< #32) ]
    [ERep "mask" 7].

(* src/field/mod_e382_105.rs:1213-1230  PrimeField  F::fill *)
Definition f_fill : func := mkfunc ["self"; "bit"] [
    (*1214*) "mask" <- ECast I64 "bit";
    (*1216*) "mask" <- "mask" .| ("mask" .<< #1);
    (*1217*) "mask" <- "mask" .| ("mask" .<< #2);
    (*1218*) "mask" <- "mask" .| ("mask" .<< #4);
    (*1219*) "mask" <- "mask" .| ("mask" .<< #8);
    (*1220*) "mask" <- "mask" .| ("mask" .<< #16);
    (*1221*) "mask" <- "mask" .| ("mask" .<< #32);
    (*1223*) SSet "self" #0 ("mask");
    (*1224*) SSet "self" #1 ("mask");
    (*1225*) SSet "self" #2 ("mask");
    (*1226*) SSet "self" #3 ("mask");
    (*1227*) SSet "self" #4 ("mask");
    (*1228*) SSet "self" #5 ("mask");
    (*1229*) SSet "self" #6 ("mask") ]
    [].

(* src/field/mod_e382_105.rs:1232-1243  PrimeField  F::filled *)
Definition f_filled : func := mkfunc ["bit"] [
    (*1233*) "mask" <- ECast I64 "bit";
    (*1235*) "mask" <- "mask" .| ("mask" .<< #1);
    (*1236*) "mask" <- "mask" .| ("mask" .<< #2);
    (*1237*) "mask" <- "mask" .| ("mask" .<< #4);
    (*1238*) "mask" <- "mask" .| ("mask" .<< #8);
    (*1239*) "mask" <- "mask" .| ("mask" .<< #16);
    (*1240*) "mask" <- "mask" .| ("mask" .<< #32) ]
    [ERep "mask" 7].

(* src/field/mod_e382_105.rs:1245-1245  PrimeField  F::nbits *)
Definition f_nbits : func := mkfunc [] [
 ]
    [#382].

(* src/field/mod_e382_105.rs:1247-1252  PrimeField  F::bit_normalized *)
Definition f_bit_normalized : func := mkfunc ["self"; "idx"] [
    (*1248*) "byte" <- EUDiv "idx" #56;
    (*1249*) "bit" <- EURem "idx" #56 ]
    [EEq ((("self".["byte"]) .>> "bit") .& #0x1) #0x1].

(* src/field/mod_e382_105.rs:1254-1257  PrimeField  F::bit *)
Definition f_bit : func := mkfunc ["self"; "idx"] [
    (*1255*) SCall [] "F::normalize" [AMut "self"];
    (*1256*) SCall ["%1"] "F::bit_normalized" [AVal "self"; AVal "idx"] ]
    [EVar "%1"].

(* src/field/mod_e382_105.rs:1259-1262  PrimeField  F::normalize_bitand *)
Definition f_normalize_bitand : func := mkfunc ["self"; "rhs"] [
    (*1260*) SCall [] "F::normalize" [AMut "rhs"];
    (*1261*) SCall [] "F::normalize_self_bitand" [AMut "self"; AVal "rhs"] ]
    [].

(* src/field/mod_e382_105.rs:1264-1267  PrimeField  F::normalize_self_bitand *)
Definition f_normalize_self_bitand : func := mkfunc ["self"; "rhs"] [
    (*1265*) SCall [] "F::normalize" [AMut "self"];
    (*1266*) SCall [] "F::normalized_bitand" [AMut "self"; AVal "rhs"] ]
    [].

(* src/field/mod_e382_105.rs:1270-1278  PrimeField  F::normalized_bitand *)
Definition f_normalized_bitand : func := mkfunc ["self"; "rhs"] [
    (*1271*) SSet "self" #0 (("self".[#0]) .& ("rhs".[#0]));
    (*1272*) SSet "self" #1 (("self".[#1]) .& ("rhs".[#1]));
    (*1273*) SSet "self" #2 (("self".[#2]) .& ("rhs".[#2]));
    (*1274*) SSet "self" #3 (("self".[#3]) .& ("rhs".[#3]));
    (*1275*) SSet "self" #4 (("self".[#4]) .& ("rhs".[#4]));
    (*1276*) SSet "self" #5 (("self".[#5]) .& ("rhs".[#5]));
    (*1277*) SSet "self" #6 (("self".[#6]) .& ("rhs".[#6])) ]
    [].

(* src/field/mod_e382_105.rs:1280-1283  PrimeField  F::normalize_bitor *)
Definition f_normalize_bitor : func := mkfunc ["self"; "rhs"] [
    (*1281*) SCall [] "F::normalize" [AMut "rhs"];
    (*1282*) SCall [] "F::normalize_self_bitor" [AMut "self"; AVal "rhs"] ]
    [].

(* src/field/mod_e382_105.rs:1285-1288  PrimeField  F::normalize_self_bitor *)
Definition f_normalize_self_bitor : func := mkfunc ["self"; "rhs"] [
    (*1286*) SCall [] "F::normalize" [AMut "self"];
    (*1287*) SCall [] "F::normalized_bitor" [AMut "self"; AVal "rhs"] ]
    [].

(* src/field/mod_e382_105.rs:1290-1298  PrimeField  F::normalized_bitor *)
Definition f_normalized_bitor : func := mkfunc ["self"; "rhs"] [
    (*1291*) SSet "self" #0 (("self".[#0]) .| ("rhs".[#0]));
    (*1292*) SSet "self" #1 (("self".[#1]) .| ("rhs".[#1]));
    (*1293*) SSet "self" #2 (("self".[#2]) .| ("rhs".[#2]));
    (*1294*) SSet "self" #3 (("self".[#3]) .| ("rhs".[#3]));
    (*1295*) SSet "self" #4 (("self".[#4]) .| ("rhs".[#4]));
    (*1296*) SSet "self" #5 (("self".[#5]) .| ("rhs".[#5]));
    (*1297*) SSet "self" #6 (("self".[#6]) .| ("rhs".[#6])) ]
    [].

(* src/field/mod_e382_105.rs:1300-1302  PrimeField  F::zero *)
Definition f_zero : func := mkfunc [] [
 ]
    [ELit ZERO].

(* src/field/mod_e382_105.rs:1304-1306  PrimeField  F::one *)
Definition f_one : func := mkfunc [] [
 ]
    [ELit ONE].

(* src/field/mod_e382_105.rs:1308-1310  PrimeField  F::m_one *)
Definition f_m_one : func := mkfunc [] [
 ]
    [ELit M_ONE].

(* src/field/mod_e382_105.rs:1312-1314  PrimeField  F::modulus *)
Definition f_modulus : func := mkfunc [] [
 ]
    [ELit MODULUS].

(* src/field/mod_e382_105.rs:1316-1723  PrimeField  F::square *)
Definition f_square : func := mkfunc ["self"] [
    (*1317*) "a0" <- ("self".[#0]) .& #0x0fffffff;
    (*1318*) "a1" <- ("self".[#0]) .>> #28;
    (*1319*) "a2" <- ("self".[#1]) .& #0x0fffffff;
    (*1320*) "a3" <- ("self".[#1]) .>> #28;
    (*1321*) "a4" <- ("self".[#2]) .& #0x0fffffff;
    (*1322*) "a5" <- ("self".[#2]) .>> #28;
    (*1323*) "a6" <- ("self".[#3]) .& #0x0fffffff;
    (*1324*) "a7" <- ("self".[#3]) .>> #28;
    (*1325*) "a8" <- ("self".[#4]) .& #0x0fffffff;
    (*1326*) "a9" <- ("self".[#4]) .>> #28;
    (*1327*) "a10" <- ("self".[#5]) .& #0x0fffffff;
    (*1328*) "a11" <- ("self".[#5]) .>> #28;
    (*1329*) "a12" <- ("self".[#6]) .& #0x0fffffff;
    (*1330*) "a13" <- ("self".[#6]) .>> #28;
    (*1333*) "m_0_0" <- "a0" .* "a0";
    (*1334*) "m_0_1" <- "a0" .* "a1";
    (*1335*) "m_0_2" <- "a0" .* "a2";
    (*1336*) "m_0_3" <- "a0" .* "a3";
    (*1337*) "m_0_4" <- "a0" .* "a4";
    (*1338*) "m_0_5" <- "a0" .* "a5";
    (*1339*) "m_0_6" <- "a0" .* "a6";
    (*1340*) "m_0_7" <- "a0" .* "a7";
    (*1341*) "m_0_8" <- "a0" .* "a8";
    (*1342*) "m_0_9" <- "a0" .* "a9";
    (*1343*) "m_0_10" <- "a0" .* "a10";
    (*1344*) "m_0_11" <- "a0" .* "a11";
    (*1345*) "m_0_12" <- "a0" .* "a12";
    (*1346*) "m_0_13" <- "a0" .* "a13";
    (*1347*) "m_1_0" <- "m_0_1";
    (*1348*) "m_1_1" <- "a1" .* "a1";
    (*1349*) "m_1_2" <- "a1" .* "a2";
    (*1350*) "m_1_3" <- "a1" .* "a3";
    (*1351*) "m_1_4" <- "a1" .* "a4";
    (*1352*) "m_1_5" <- "a1" .* "a5";
    (*1353*) "m_1_6" <- "a1" .* "a6";
    (*1354*) "m_1_7" <- "a1" .* "a7";
    (*1355*) "m_1_8" <- "a1" .* "a8";
    (*1356*) "m_1_9" <- "a1" .* "a9";
    (*1357*) "m_1_10" <- "a1" .* "a10";
    (*1358*) "m_1_11" <- "a1" .* "a11";
    (*1359*) "m_1_12" <- "a1" .* "a12";
    (*1360*) "m_1_13" <- "a1" .* "a13";
    (*1361*) "m_2_0" <- "m_0_2";
    (*1362*) "m_2_1" <- "m_1_2";
    (*1363*) "m_2_2" <- "a2" .* "a2";
    (*1364*) "m_2_3" <- "a2" .* "a3";
    (*1365*) "m_2_4" <- "a2" .* "a4";
    (*1366*) "m_2_5" <- "a2" .* "a5";
    (*1367*) "m_2_6" <- "a2" .* "a6";
    (*1368*) "m_2_7" <- "a2" .* "a7";
    (*1369*) "m_2_8" <- "a2" .* "a8";
    (*1370*) "m_2_9" <- "a2" .* "a9";
    (*1371*) "m_2_10" <- "a2" .* "a10";
    (*1372*) "m_2_11" <- "a2" .* "a11";
    (*1373*) "m_2_12" <- "a2" .* "a12";
    (*1374*) "m_2_13" <- "a2" .* "a13";
    (*1375*) "m_3_0" <- "m_0_3";
    (*1376*) "m_3_1" <- "m_1_3";
    (*1377*) "m_3_2" <- "m_2_3";
    (*1378*) "m_3_3" <- "a3" .* "a3";
    (*1379*) "m_3_4" <- "a3" .* "a4";
    (*1380*) "m_3_5" <- "a3" .* "a5";
    (*1381*) "m_3_6" <- "a3" .* "a6";
    (*1382*) "m_3_7" <- "a3" .* "a7";
    (*1383*) "m_3_8" <- "a3" .* "a8";
    (*1384*) "m_3_9" <- "a3" .* "a9";
    (*1385*) "m_3_10" <- "a3" .* "a10";
    (*1386*) "m_3_11" <- "a3" .* "a11";
    (*1387*) "m_3_12" <- "a3" .* "a12";
    (*1388*) "m_3_13" <- "a3" .* "a13";
    (*1389*) "m_4_0" <- "m_0_4";
    (*1390*) "m_4_1" <- "m_1_4";
    (*1391*) "m_4_2" <- "m_2_4";
    (*1392*) "m_4_3" <- "m_3_4";
    (*1393*) "m_4_4" <- "a4" .* "a4";
    (*1394*) "m_4_5" <- "a4" .* "a5";
    (*1395*) "m_4_6" <- "a4" .* "a6";
    (*1396*) "m_4_7" <- "a4" .* "a7";
    (*1397*) "m_4_8" <- "a4" .* "a8";
    (*1398*) "m_4_9" <- "a4" .* "a9";
    (*1399*) "m_4_10" <- "a4" .* "a10";
    (*1400*) "m_4_11" <- "a4" .* "a11";
    (*1401*) "m_4_12" <- "a4" .* "a12";
    (*1402*) "m_4_13" <- "a4" .* "a13";
    (*1403*) "m_5_0" <- "m_0_5";
    (*1404*) "m_5_1" <- "m_1_5";
    (*1405*) "m_5_2" <- "m_2_5";
    (*1406*) "m_5_3" <- "m_3_5";
    (*1407*) "m_5_4" <- "m_4_5";
    (*1408*) "m_5_5" <- "a5" .* "a5";
    (*1409*) "m_5_6" <- "a5" .* "a6";
    (*1410*) "m_5_7" <- "a5" .* "a7";
    (*1411*) "m_5_8" <- "a5" .* "a8";
    (*1412*) "m_5_9" <- "a5" .* "a9";
    (*1413*) "m_5_10" <- "a5" .* "a10";
    (*1414*) "m_5_11" <- "a5" .* "a11";
    (*1415*) "m_5_12" <- "a5" .* "a12";
    (*1416*) "m_5_13" <- "a5" .* "a13";
    (*1417*) "m_6_0" <- "m_0_6";
    (*1418*) "m_6_1" <- "m_1_6";
    (*1419*) "m_6_2" <- "m_2_6";
    (*1420*) "m_6_3" <- "m_3_6";
    (*1421*) "m_6_4" <- "m_4_6";
    (*1422*) "m_6_5" <- "m_5_6";
    (*1423*) "m_6_6" <- "a6" .* "a6";
    (*1424*) "m_6_7" <- "a6" .* "a7";
    (*1425*) "m_6_8" <- "a6" .* "a8";
    (*1426*) "m_6_9" <- "a6" .* "a9";
    (*1427*) "m_6_10" <- "a6" .* "a10";
    (*1428*) "m_6_11" <- "a6" .* "a11";
    (*1429*) "m_6_12" <- "a6" .* "a12";
    (*1430*) "m_6_13" <- "a6" .* "a13";
    (*1431*) "m_7_0" <- "m_0_7";
    (*1432*) "m_7_1" <- "m_1_7";
    (*1433*) "m_7_2" <- "m_2_7";
    (*1434*) "m_7_3" <- "m_3_7";
    (*1435*) "m_7_4" <- "m_4_7";
    (*1436*) "m_7_5" <- "m_5_7";
    (*1437*) "m_7_6" <- "m_6_7";
    (*1438*) "m_7_7" <- "a7" .* "a7";
    (*1439*) "m_7_8" <- "a7" .* "a8";
    (*1440*) "m_7_9" <- "a7" .* "a9";
    (*1441*) "m_7_10" <- "a7" .* "a10";
    (*1442*) "m_7_11" <- "a7" .* "a11";
    (*1443*) "m_7_12" <- "a7" .* "a12";
    (*1444*) "m_7_13" <- "a7" .* "a13";
    (*1445*) "m_8_0" <- "m_0_8";
    (*1446*) "m_8_1" <- "m_1_8";
    (*1447*) "m_8_2" <- "m_2_8";
    (*1448*) "m_8_3" <- "m_3_8";
    (*1449*) "m_8_4" <- "m_4_8";
    (*1450*) "m_8_5" <- "m_5_8";
    (*1451*) "m_8_6" <- "m_6_8";
    (*1452*) "m_8_7" <- "m_7_8";
    (*1453*) "m_8_8" <- "a8" .* "a8";
    (*1454*) "m_8_9" <- "a8" .* "a9";
    (*1455*) "m_8_10" <- "a8" .* "a10";
    (*1456*) "m_8_11" <- "a8" .* "a11";
    (*1457*) "m_8_12" <- "a8" .* "a12";
    (*1458*) "m_8_13" <- "a8" .* "a13";
    (*1459*) "m_9_0" <- "m_0_9";
    (*1460*) "m_9_1" <- "m_1_9";
    (*1461*) "m_9_2" <- "m_2_9";
    (*1462*) "m_9_3" <- "m_3_9";
    (*1463*) "m_9_4" <- "m_4_9";
    (*1464*) "m_9_5" <- "m_5_9";
    (*1465*) "m_9_6" <- "m_6_9";
    (*1466*) "m_9_7" <- "m_7_9";
    (*1467*) "m_9_8" <- "m_8_9";
    (*1468*) "m_9_9" <- "a9" .* "a9";
    (*1469*) "m_9_10" <- "a9" .* "a10";
    (*1470*) "m_9_11" <- "a9" .* "a11";
    (*1471*) "m_9_12" <- "a9" .* "a12";
    (*1472*) "m_9_13" <- "a9" .* "a13";
    (*1473*) "m_10_0" <- "m_0_10";
    (*1474*) "m_10_1" <- "m_1_10";
    (*1475*) "m_10_2" <- "m_2_10";
    (*1476*) "m_10_3" <- "m_3_10";
    (*1477*) "m_10_4" <- "m_4_10";
    (*1478*) "m_10_5" <- "m_5_10";
    (*1479*) "m_10_6" <- "m_6_10";
    (*1480*) "m_10_7" <- "m_7_10";
    (*1481*) "m_10_8" <- "m_8_10";
    (*1482*) "m_10_9" <- "m_9_10";
    (*1483*) "m_10_10" <- "a10" .* "a10";
    (*1484*) "m_10_11" <- "a10" .* "a11";
    (*1485*) "m_10_12" <- "a10" .* "a12";
    (*1486*) "m_10_13" <- "a10" .* "a13";
    (*1487*) "m_11_0" <- "m_0_11";
    (*1488*) "m_11_1" <- "m_1_11";
    (*1489*) "m_11_2" <- "m_2_11";
    (*1490*) "m_11_3" <- "m_3_11";
    (*1491*) "m_11_4" <- "m_4_11";
    (*1492*) "m_11_5" <- "m_5_11";
    (*1493*) "m_11_6" <- "m_6_11";
    (*1494*) "m_11_7" <- "m_7_11";
    (*1495*) "m_11_8" <- "m_8_11";
    (*1496*) "m_11_9" <- "m_9_11";
    (*1497*) "m_11_10" <- "m_10_11";
    (*1498*) "m_11_11" <- "a11" .* "a11";
    (*1499*) "m_11_12" <- "a11" .* "a12";
    (*1500*) "m_11_13" <- "a11" .* "a13";
    (*1501*) "m_12_0" <- "m_0_12";
    (*1502*) "m_12_1" <- "m_1_12";
    (*1503*) "m_12_2" <- "m_2_12";
    (*1504*) "m_12_3" <- "m_3_12";
    (*1505*) "m_12_4" <- "m_4_12";
    (*1506*) "m_12_5" <- "m_5_12";
    (*1507*) "m_12_6" <- "m_6_12";
    (*1508*) "m_12_7" <- "m_7_12";
    (*1509*) "m_12_8" <- "m_8_12";
    (*1510*) "m_12_9" <- "m_9_12";
    (*1511*) "m_12_10" <- "m_10_12";
    (*1512*) "m_12_11" <- "m_11_12";
    (*1513*) "m_12_12" <- "a12" .* "a12";
    (*1514*) "m_12_13" <- "a12" .* "a13";
    (*1515*) "m_13_0" <- "m_0_13";
    (*1516*) "m_13_1" <- "m_1_13";
    (*1517*) "m_13_2" <- "m_2_13";
    (*1518*) "m_13_3" <- "m_3_13";
    (*1519*) "m_13_4" <- "m_4_13";
    (*1520*) "m_13_5" <- "m_5_13";
    (*1521*) "m_13_6" <- "m_6_13";
    (*1522*) "m_13_7" <- "m_7_13";
    (*1523*) "m_13_8" <- "m_8_13";
    (*1524*) "m_13_9" <- "m_9_13";
    (*1525*) "m_13_10" <- "m_10_13";
    (*1526*) "m_13_11" <- "m_11_13";
    (*1527*) "m_13_12" <- "m_12_13";
    (*1528*) "m_13_13" <- "a13" .* "a13";
    (*1531*) "d0" <- ("m_0_0" .+ (("m_0_1" .& #0x0fffffff) .<< #28)) .+ (("m_1_0" .& #0x0fffffff) .<< #28);
    (*1533*) "c0" <- "d0" .>> #56;
    (*1534*) "d1" <- ((((((((("m_0_1" .>> #28) .+ "m_0_2") .+ (("m_0_3" .& #0x0fffffff) .<< #28)) .+ ("m_1_0" .>> #28)) .+ "m_1_1") .+ (("m_1_2" .& #0x0fffffff) .<< #28)) .+ "m_2_0") .+ (("m_2_1" .& #0x0fffffff) .<< #28)) .+ (("m_3_0" .& #0x0fffffff) .<< #28)) .+ "c0";
    (*1538*) "c1" <- "d1" .>> #56;
    (*1539*) "d2" <- ((((((((((((((("m_0_3" .>> #28) .+ "m_0_4") .+ (("m_0_5" .& #0x0fffffff) .<< #28)) .+ ("m_1_2" .>> #28)) .+ "m_1_3") .+ (("m_1_4" .& #0x0fffffff) .<< #28)) .+ ("m_2_1" .>> #28)) .+ "m_2_2") .+ (("m_2_3" .& #0x0fffffff) .<< #28)) .+ ("m_3_0" .>> #28)) .+ "m_3_1") .+ (("m_3_2" .& #0x0fffffff) .<< #28)) .+ "m_4_0") .+ (("m_4_1" .& #0x0fffffff) .<< #28)) .+ (("m_5_0" .& #0x0fffffff) .<< #28)) .+ "c1";
    (*1545*) "c2" <- "d2" .>> #56;
    (*1546*) "d3" <- ((((((((((((((((((((("m_0_5" .>> #28) .+ "m_0_6") .+ (("m_0_7" .& #0x0fffffff) .<< #28)) .+ ("m_1_4" .>> #28)) .+ "m_1_5") .+ (("m_1_6" .& #0x0fffffff) .<< #28)) .+ ("m_2_3" .>> #28)) .+ "m_2_4") .+ (("m_2_5" .& #0x0fffffff) .<< #28)) .+ ("m_3_2" .>> #28)) .+ "m_3_3") .+ (("m_3_4" .& #0x0fffffff) .<< #28)) .+ ("m_4_1" .>> #28)) .+ "m_4_2") .+ (("m_4_3" .& #0x0fffffff) .<< #28)) .+ ("m_5_0" .>> #28)) .+ "m_5_1") .+ (("m_5_2" .& #0x0fffffff) .<< #28)) .+ "m_6_0") .+ (("m_6_1" .& #0x0fffffff) .<< #28)) .+ (("m_7_0" .& #0x0fffffff) .<< #28)) .+ "c2";
    (*1554*) "c3" <- "d3" .>> #56;
    (*1555*) "d4" <- ((((((((((((((((((((((((((("m_0_7" .>> #28) .+ "m_0_8") .+ (("m_0_9" .& #0x0fffffff) .<< #28)) .+ ("m_1_6" .>> #28)) .+ "m_1_7") .+ (("m_1_8" .& #0x0fffffff) .<< #28)) .+ ("m_2_5" .>> #28)) .+ "m_2_6") .+ (("m_2_7" .& #0x0fffffff) .<< #28)) .+ ("m_3_4" .>> #28)) .+ "m_3_5") .+ (("m_3_6" .& #0x0fffffff) .<< #28)) .+ ("m_4_3" .>> #28)) .+ "m_4_4") .+ (("m_4_5" .& #0x0fffffff) .<< #28)) .+ ("m_5_2" .>> #28)) .+ "m_5_3") .+ (("m_5_4" .& #0x0fffffff) .<< #28)) .+ ("m_6_1" .>> #28)) .+ "m_6_2") .+ (("m_6_3" .& #0x0fffffff) .<< #28)) .+ ("m_7_0" .>> #28)) .+ "m_7_1") .+ (("m_7_2" .& #0x0fffffff) .<< #28)) .+ "m_8_0") .+ (("m_8_1" .& #0x0fffffff) .<< #28)) .+ (("m_9_0" .& #0x0fffffff) .<< #28)) .+ "c3";
    (*1565*) "c4" <- "d4" .>> #56;
    (*1566*) "d5" <- ((((((((((((((((((((((((((((((((("m_0_9" .>> #28) .+ "m_0_10") .+ (("m_0_11" .& #0x0fffffff) .<< #28)) .+ ("m_1_8" .>> #28)) .+ "m_1_9") .+ (("m_1_10" .& #0x0fffffff) .<< #28)) .+ ("m_2_7" .>> #28)) .+ "m_2_8") .+ (("m_2_9" .& #0x0fffffff) .<< #28)) .+ ("m_3_6" .>> #28)) .+ "m_3_7") .+ (("m_3_8" .& #0x0fffffff) .<< #28)) .+ ("m_4_5" .>> #28)) .+ "m_4_6") .+ (("m_4_7" .& #0x0fffffff) .<< #28)) .+ ("m_5_4" .>> #28)) .+ "m_5_5") .+ (("m_5_6" .& #0x0fffffff) .<< #28)) .+ ("m_6_3" .>> #28)) .+ "m_6_4") .+ (("m_6_5" .& #0x0fffffff) .<< #28)) .+ ("m_7_2" .>> #28)) .+ "m_7_3") .+ (("m_7_4" .& #0x0fffffff) .<< #28)) .+ ("m_8_1" .>> #28)) .+ "m_8_2") .+ (("m_8_3" .& #0x0fffffff) .<< #28)) .+ ("m_9_0" .>> #28)) .+ "m_9_1") .+ (("m_9_2" .& #0x0fffffff) .<< #28)) .+ "m_10_0") .+ (("m_10_1" .& #0x0fffffff) .<< #28)) .+ (("m_11_0" .& #0x0fffffff) .<< #28)) .+ "c4";
    (*1578*) "c5" <- "d5" .>> #56;
    (*1579*) "d6" <- ((((((((((((((((((((((((((((((((((((((("m_0_11" .>> #28) .+ "m_0_12") .+ (("m_0_13" .& #0x0fffffff) .<< #28)) .+ ("m_1_10" .>> #28)) .+ "m_1_11") .+ (("m_1_12" .& #0x0fffffff) .<< #28)) .+ ("m_2_9" .>> #28)) .+ "m_2_10") .+ (("m_2_11" .& #0x0fffffff) .<< #28)) .+ ("m_3_8" .>> #28)) .+ "m_3_9") .+ (("m_3_10" .& #0x0fffffff) .<< #28)) .+ ("m_4_7" .>> #28)) .+ "m_4_8") .+ (("m_4_9" .& #0x0fffffff) .<< #28)) .+ ("m_5_6" .>> #28)) .+ "m_5_7") .+ (("m_5_8" .& #0x0fffffff) .<< #28)) .+ ("m_6_5" .>> #28)) .+ "m_6_6") .+ (("m_6_7" .& #0x0fffffff) .<< #28)) .+ ("m_7_4" .>> #28)) .+ "m_7_5") .+ (("m_7_6" .& #0x0fffffff) .<< #28)) .+ ("m_8_3" .>> #28)) .+ "m_8_4") .+ (("m_8_5" .& #0x0fffffff) .<< #28)) .+ ("m_9_2" .>> #28)) .+ "m_9_3") .+ (("m_9_4" .& #0x0fffffff) .<< #28)) .+ ("m_10_1" .>> #28)) .+ "m_10_2") .+ (("m_10_3" .& #0x0fffffff) .<< #28)) .+ ("m_11_0" .>> #28)) .+ "m_11_1") .+ (("m_11_2" .& #0x0fffffff) .<< #28)) .+ "m_12_0") .+ (("m_12_1" .& #0x0fffffff) .<< #28)) .+ (("m_13_0" .& #0x0fffffff) .<< #28)) .+ "c5";
    (*1593*) "c6" <- "d6" .>> #56;
    (*1594*) "d7" <- ((((((((((((((((((((((((((((((((((((((("m_0_13" .>> #28) .+ ("m_1_12" .>> #28)) .+ "m_1_13") .+ ("m_2_11" .>> #28)) .+ "m_2_12") .+ (("m_2_13" .& #0x0fffffff) .<< #28)) .+ ("m_3_10" .>> #28)) .+ "m_3_11") .+ (("m_3_12" .& #0x0fffffff) .<< #28)) .+ ("m_4_9" .>> #28)) .+ "m_4_10") .+ (("m_4_11" .& #0x0fffffff) .<< #28)) .+ ("m_5_8" .>> #28)) .+ "m_5_9") .+ (("m_5_10" .& #0x0fffffff) .<< #28)) .+ ("m_6_7" .>> #28)) .+ "m_6_8") .+ (("m_6_9" .& #0x0fffffff) .<< #28)) .+ ("m_7_6" .>> #28)) .+ "m_7_7") .+ (("m_7_8" .& #0x0fffffff) .<< #28)) .+ ("m_8_5" .>> #28)) .+ "m_8_6") .+ (("m_8_7" .& #0x0fffffff) .<< #28)) .+ ("m_9_4" .>> #28)) .+ "m_9_5") .+ (("m_9_6" .& #0x0fffffff) .<< #28)) .+ ("m_10_3" .>> #28)) .+ "m_10_4") .+ (("m_10_5" .& #0x0fffffff) .<< #28)) .+ ("m_11_2" .>> #28)) .+ "m_11_3") .+ (("m_11_4" .& #0x0fffffff) .<< #28)) .+ ("m_12_1" .>> #28)) .+ "m_12_2") .+ (("m_12_3" .& #0x0fffffff) .<< #28)) .+ ("m_13_0" .>> #28)) .+ "m_13_1") .+ (("m_13_2" .& #0x0fffffff) .<< #28)) .+ "c6";
    (*1609*) "c7" <- "d7" .>> #56;
    (*1610*) "d8" <- ((((((((((((((((((((((((((((((((("m_2_13" .>> #28) .+ ("m_3_12" .>> #28)) .+ "m_3_13") .+ ("m_4_11" .>> #28)) .+ "m_4_12") .+ (("m_4_13" .& #0x0fffffff) .<< #28)) .+ ("m_5_10" .>> #28)) .+ "m_5_11") .+ (("m_5_12" .& #0x0fffffff) .<< #28)) .+ ("m_6_9" .>> #28)) .+ "m_6_10") .+ (("m_6_11" .& #0x0fffffff) .<< #28)) .+ ("m_7_8" .>> #28)) .+ "m_7_9") .+ (("m_7_10" .& #0x0fffffff) .<< #28)) .+ ("m_8_7" .>> #28)) .+ "m_8_8") .+ (("m_8_9" .& #0x0fffffff) .<< #28)) .+ ("m_9_6" .>> #28)) .+ "m_9_7") .+ (("m_9_8" .& #0x0fffffff) .<< #28)) .+ ("m_10_5" .>> #28)) .+ "m_10_6") .+ (("m_10_7" .& #0x0fffffff) .<< #28)) .+ ("m_11_4" .>> #28)) .+ "m_11_5") .+ (("m_11_6" .& #0x0fffffff) .<< #28)) .+ ("m_12_3" .>> #28)) .+ "m_12_4") .+ (("m_12_5" .& #0x0fffffff) .<< #28)) .+ ("m_13_2" .>> #28)) .+ "m_13_3") .+ (("m_13_4" .& #0x0fffffff) .<< #28)) .+ "c7";
    (*1623*) "c8" <- "d8" .>> #56;
    (*1624*) "d9" <- ((((((((((((((((((((((((((("m_4_13" .>> #28) .+ ("m_5_12" .>> #28)) .+ "m_5_13") .+ ("m_6_11" .>> #28)) .+ "m_6_12") .+ (("m_6_13" .& #0x0fffffff) .<< #28)) .+ ("m_7_10" .>> #28)) .+ "m_7_11") .+ (("m_7_12" .& #0x0fffffff) .<< #28)) .+ ("m_8_9" .>> #28)) .+ "m_8_10") .+ (("m_8_11" .& #0x0fffffff) .<< #28)) .+ ("m_9_8" .>> #28)) .+ "m_9_9") .+ (("m_9_10" .& #0x0fffffff) .<< #28)) .+ ("m_10_7" .>> #28)) .+ "m_10_8") .+ (("m_10_9" .& #0x0fffffff) .<< #28)) .+ ("m_11_6" .>> #28)) .+ "m_11_7") .+ (("m_11_8" .& #0x0fffffff) .<< #28)) .+ ("m_12_5" .>> #28)) .+ "m_12_6") .+ (("m_12_7" .& #0x0fffffff) .<< #28)) .+ ("m_13_4" .>> #28)) .+ "m_13_5") .+ (("m_13_6" .& #0x0fffffff) .<< #28)) .+ "c8";
    (*1635*) "c9" <- "d9" .>> #56;
    (*1636*) "d10" <- ((((((((((((((((((((("m_6_13" .>> #28) .+ ("m_7_12" .>> #28)) .+ "m_7_13") .+ ("m_8_11" .>> #28)) .+ "m_8_12") .+ (("m_8_13" .& #0x0fffffff) .<< #28)) .+ ("m_9_10" .>> #28)) .+ "m_9_11") .+ (("m_9_12" .& #0x0fffffff) .<< #28)) .+ ("m_10_9" .>> #28)) .+ "m_10_10") .+ (("m_10_11" .& #0x0fffffff) .<< #28)) .+ ("m_11_8" .>> #28)) .+ "m_11_9") .+ (("m_11_10" .& #0x0fffffff) .<< #28)) .+ ("m_12_7" .>> #28)) .+ "m_12_8") .+ (("m_12_9" .& #0x0fffffff) .<< #28)) .+ ("m_13_6" .>> #28)) .+ "m_13_7") .+ (("m_13_8" .& #0x0fffffff) .<< #28)) .+ "c9";
    (*1645*) "c10" <- "d10" .>> #56;
    (*1646*) "d11" <- ((((((((((((((("m_8_13" .>> #28) .+ ("m_9_12" .>> #28)) .+ "m_9_13") .+ ("m_10_11" .>> #28)) .+ "m_10_12") .+ (("m_10_13" .& #0x0fffffff) .<< #28)) .+ ("m_11_10" .>> #28)) .+ "m_11_11") .+ (("m_11_12" .& #0x0fffffff) .<< #28)) .+ ("m_12_9" .>> #28)) .+ "m_12_10") .+ (("m_12_11" .& #0x0fffffff) .<< #28)) .+ ("m_13_8" .>> #28)) .+ "m_13_9") .+ (("m_13_10" .& #0x0fffffff) .<< #28)) .+ "c10";
    (*1653*) "c11" <- "d11" .>> #56;
    (*1654*) "d12" <- ((((((((("m_10_13" .>> #28) .+ ("m_11_12" .>> #28)) .+ "m_11_13") .+ ("m_12_11" .>> #28)) .+ "m_12_12") .+ (("m_12_13" .& #0x0fffffff) .<< #28)) .+ ("m_13_10" .>> #28)) .+ "m_13_11") .+ (("m_13_12" .& #0x0fffffff) .<< #28)) .+ "c11";
    (*1659*) "c12" <- "d12" .>> #56;
    (*1660*) "d13" <- ((("m_12_13" .>> #28) .+ ("m_13_12" .>> #28)) .+ "m_13_13") .+ "c12";
    (*1667*) "l0_0" <- "d0" .& #0x00ffffffffffffff;
    (*1668*) "l1_0" <- "d1" .& #0x00ffffffffffffff;
    (*1669*) "l2_0" <- "d2" .& #0x00ffffffffffffff;
    (*1670*) "l3_0" <- "d3" .& #0x00ffffffffffffff;
    (*1671*) "l4_0" <- "d4" .& #0x00ffffffffffffff;
    (*1672*) "l5_0" <- "d5" .& #0x00ffffffffffffff;
    (*1673*) "l6_0" <- "d6" .& #0x00003fffffffffff;
    (*1676*) "h0_0" <- (("d6" .& #0x00ffffffffffffff) .>> #46) .| (("d7" .& #0x00003fffffffffff) .<< #10);
    (*1678*) "h1_0" <- (("d7" .& #0x00ffffffffffffff) .>> #46) .| (("d8" .& #0x00003fffffffffff) .<< #10);
    (*1680*) "h2_0" <- (("d8" .& #0x00ffffffffffffff) .>> #46) .| (("d9" .& #0x00003fffffffffff) .<< #10);
    (*1682*) "h3_0" <- (("d9" .& #0x00ffffffffffffff) .>> #46) .| (("d10" .& #0x00003fffffffffff) .<< #10);
    (*1684*) "h4_0" <- (("d10" .& #0x00ffffffffffffff) .>> #46) .| (("d11" .& #0x00003fffffffffff) .<< #10);
    (*1686*) "h5_0" <- (("d11" .& #0x00ffffffffffffff) .>> #46) .| (("d12" .& #0x00003fffffffffff) .<< #10);
    (*1688*) "h6_0" <- (("d12" .& #0x00ffffffffffffff) .>> #46) .| ("d13" .<< #10);
    (*1692*) "hc0_0" <- "h0_0" .* (EInt C_VAL);
    (*1693*) "hc1_0" <- "h1_0" .* (EInt C_VAL);
    (*1694*) "hc2_0" <- "h2_0" .* (EInt C_VAL);
    (*1695*) "hc3_0" <- "h3_0" .* (EInt C_VAL);
    (*1696*) "hc4_0" <- "h4_0" .* (EInt C_VAL);
    (*1697*) "hc5_0" <- "h5_0" .* (EInt C_VAL);
    (*1698*) "hc6_0" <- "h6_0" .* (EInt C_VAL);
    (*1701*) "kin_0" <- "hc6_0" .>> #46;
    (*1702*) "s0_0" <- ("l0_0" .+ "hc0_0") .+ ("kin_0" .* (EInt C_VAL));
    (*1703*) "k0_0" <- "s0_0" .>> #56;
    (*1704*) "s1_0" <- ("l1_0" .+ "hc1_0") .+ "k0_0";
    (*1705*) "k1_0" <- "s1_0" .>> #56;
    (*1706*) "s2_0" <- ("l2_0" .+ "hc2_0") .+ "k1_0";
    (*1707*) "k2_0" <- "s2_0" .>> #56;
    (*1708*) "s3_0" <- ("l3_0" .+ "hc3_0") .+ "k2_0";
    (*1709*) "k3_0" <- "s3_0" .>> #56;
    (*1710*) "s4_0" <- ("l4_0" .+ "hc4_0") .+ "k3_0";
    (*1711*) "k4_0" <- "s4_0" .>> #56;
    (*1712*) "s5_0" <- ("l5_0" .+ "hc5_0") .+ "k4_0";
    (*1713*) "k5_0" <- "s5_0" .>> #56;
    (*1714*) "s6_0" <- ("l6_0" .+ ("hc6_0" .& #0x00003fffffffffff)) .+ "k5_0";
    (*1716*) SSet "self" #0 ("s0_0" .& #0x00ffffffffffffff);
    (*1717*) SSet "self" #1 ("s1_0" .& #0x00ffffffffffffff);
    (*1718*) SSet "self" #2 ("s2_0" .& #0x00ffffffffffffff);
    (*1719*) SSet "self" #3 ("s3_0" .& #0x00ffffffffffffff);
    (*1720*) SSet "self" #4 ("s4_0" .& #0x00ffffffffffffff);
    (*1721*) SSet "self" #5 ("s5_0" .& #0x00ffffffffffffff);
    (*1722*) SSet "self" #6 ("s6_0") ]
    [].

(* src/field/mod_e382_105.rs:1725-1731  PrimeField  F::squared *)
Definition f_squared : func := mkfunc ["self"] [
    (*1726*) "out" <- "self";
    (*1728*) SCall [] "F::square" [AMut "out"] ]
    [EVar "out"].

(* src/field/mod_e382_105.rs:1733-1760  PrimeField  F::invert *)
Definition f_invert : func := mkfunc ["self"] [
    (*1735*) "sqval" <- "self";
    (*1738*) SCall [] "F::square" [AMut "sqval"];
    (*1741*) SCall [] "F::square" [AMut "sqval"];
    (*1742*) SCall [] "F::mul_assign(&F)" [AMut "self"; AVal "sqval"];
    (*1745*) SCall [] "F::square" [AMut "sqval"];
    (*1748*) SCall [] "F::square" [AMut "sqval"];
    (*1749*) SCall [] "F::mul_assign(&F)" [AMut "self"; AVal "sqval"];
    (*1752*) SCall [] "F::square" [AMut "sqval"];
    (*1753*) SCall [] "F::square" [AMut "sqval"];
    (*1756*) SFor "_" #7 #382 [
      (*1757*) SCall [] "F::square" [AMut "sqval"];
      (*1758*) SCall [] "F::mul_assign(&F)" [AMut "self"; AVal "sqval"] ] ]
    [].

(* src/field/mod_e382_105.rs:1762-1768  PrimeField  F::inverted *)
Definition f_inverted : func := mkfunc ["self"] [
    (*1763*) "out" <- "self";
    (*1765*) SCall [] "F::invert" [AMut "out"] ]
    [EVar "out"].

(* src/field/mod_e382_105.rs:1770-1797  PrimeField  F::legendre *)
Definition f_legendre : func := mkfunc ["self"] [
    (*1772*) "out" <- "self";
    (*1773*) "sqval" <- "out";
    (*1776*) SCall [] "F::square" [AMut "sqval"];
    (*1777*) SCall [] "F::mul_assign(&F)" [AMut "out"; AVal "sqval"];
    (*1780*) SCall [] "F::square" [AMut "sqval"];
    (*1783*) SCall [] "F::square" [AMut "sqval"];
    (*1784*) SCall [] "F::mul_assign(&F)" [AMut "out"; AVal "sqval"];
    (*1787*) SCall [] "F::square" [AMut "sqval"];
    (*1788*) SCall [] "F::square" [AMut "sqval"];
    (*1791*) SFor "_" #6 #381 [
      (*1792*) SCall [] "F::square" [AMut "sqval"];
      (*1793*) SCall [] "F::mul_assign(&F)" [AMut "out"; AVal "sqval"] ] ]
    [EVar "out"].

(* src/field/mod_e382_105.rs:1799-1821  PrimeField  F::sqrt *)
Definition f_sqrt : func := mkfunc ["self"] [
    (*1803*) SCall ["out"] "F::squared" [AVal "self"];
    (*1804*) "sqval" <- "out";
    (*1807*) SCall [] "F::square" [AMut "sqval"];
    (*1808*) SCall [] "F::mul_assign(&F)" [AMut "out"; AVal "sqval"];
    (*1811*) SCall [] "F::square" [AMut "sqval"];
    (*1812*) SCall [] "F::square" [AMut "sqval"];
    (*1815*) SFor "_" #5 #380 [
      (*1816*) SCall [] "F::square" [AMut "sqval"];
      (*1817*) SCall [] "F::mul_assign(&F)" [AMut "out"; AVal "sqval"] ] ]
    [EVar "out"].

(* src/field/mod_e382_105.rs:1823-1856  PrimeField  F::small_add_assign *)
Definition f_small_add_assign : func := mkfunc ["self"; "rhs"] [
    (*1824*) "a0" <- "self".[#0];
    (*1825*) "a1" <- "self".[#1];
    (*1826*) "a2" <- "self".[#2];
    (*1827*) "a3" <- "self".[#3];
    (*1828*) "a4" <- "self".[#4];
    (*1829*) "a5" <- "self".[#5];
    (*1830*) "a6" <- ("self".[#6]) .& #0x00003fffffffffff;
    (*1832*) "b" <- ECast I64 "rhs";
    (*1834*) "cin" <- carry_out "self";
    (*1835*) "s0" <- ("a0" .+ "b") .+ ("cin" .* (EInt C_VAL));
    (*1836*) "c0" <- "s0" .>> #56;
    (*1837*) "s1" <- "a1" .+ "c0";
    (*1838*) "c1" <- "s1" .>> #56;
    (*1839*) "s2" <- "a2" .+ "c1";
    (*1840*) "c2" <- "s2" .>> #56;
    (*1841*) "s3" <- "a3" .+ "c2";
    (*1842*) "c3" <- "s3" .>> #56;
    (*1843*) "s4" <- "a4" .+ "c3";
    (*1844*) "c4" <- "s4" .>> #56;
    (*1845*) "s5" <- "a5" .+ "c4";
    (*1846*) "c5" <- "s5" .>> #56;
    (*1847*) "s6" <- "a6" .+ "c5";
    (*1849*) SSet "self" #0 ("s0" .& #0x00ffffffffffffff);
    (*1850*) SSet "self" #1 ("s1" .& #0x00ffffffffffffff);
    (*1851*) SSet "self" #2 ("s2" .& #0x00ffffffffffffff);
    (*1852*) SSet "self" #3 ("s3" .& #0x00ffffffffffffff);
    (*1853*) SSet "self" #4 ("s4" .& #0x00ffffffffffffff);
    (*1854*) SSet "self" #5 ("s5" .& #0x00ffffffffffffff);
    (*1855*) SSet "self" #6 ("s6") ]
    [].

(* src/field/mod_e382_105.rs:1858-1864  PrimeField  F::small_add *)
Definition f_small_add : func := mkfunc ["self"; "rhs"] [
    (*1859*) "out" <- "self";
    (*1861*) SCall [] "F::small_add_assign" [AMut "out"; AVal "rhs"] ]
    [EVar "out"].

(* src/field/mod_e382_105.rs:1866-1899  PrimeField  F::small_sub_assign *)
Definition f_small_sub_assign : func := mkfunc ["self"; "rhs"] [
    (*1867*) "a0" <- "self".[#0];
    (*1868*) "a1" <- "self".[#1];
    (*1869*) "a2" <- "self".[#2];
    (*1870*) "a3" <- "self".[#3];
    (*1871*) "a4" <- "self".[#4];
    (*1872*) "a5" <- "self".[#5];
    (*1873*) "a6" <- ("self".[#6]) .& #0x00003fffffffffff;
    (*1875*) "b" <- ECast I64 "rhs";
    (*1877*) "cin" <- carry_out "self";
    (*1878*) "s0" <- ("a0" .- "b") .+ ("cin" .* (EInt C_VAL));
    (*1879*) "c0" <- "s0" .>> #56;
    (*1880*) "s1" <- "a1" .+ "c0";
    (*1881*) "c1" <- "s1" .>> #56;
    (*1882*) "s2" <- "a2" .+ "c1";
    (*1883*) "c2" <- "s2" .>> #56;
    (*1884*) "s3" <- "a3" .+ "c2";
    (*1885*) "c3" <- "s3" .>> #56;
    (*1886*) "s4" <- "a4" .+ "c3";
    (*1887*) "c4" <- "s4" .>> #56;
    (*1888*) "s5" <- "a5" .+ "c4";
    (*1889*) "c5" <- "s5" .>> #56;
    (*1890*) "s6" <- "a6" .+ "c5";
    (*1892*) SSet "self" #0 ("s0" .& #0x00ffffffffffffff);
    (*1893*) SSet "self" #1 ("s1" .& #0x00ffffffffffffff);
    (*1894*) SSet "self" #2 ("s2" .& #0x00ffffffffffffff);
    (*1895*) SSet "self" #3 ("s3" .& #0x00ffffffffffffff);
    (*1896*) SSet "self" #4 ("s4" .& #0x00ffffffffffffff);
    (*1897*) SSet "self" #5 ("s5" .& #0x00ffffffffffffff);
    (*1898*) SSet "self" #6 ("s6") ]
    [].

(* src/field/mod_e382_105.rs:1901-1907  PrimeField  F::small_sub *)
Definition f_small_sub : func := mkfunc ["self"; "rhs"] [
    (*1902*) "out" <- "self";
    (*1904*) SCall [] "F::small_sub_assign" [AMut "out"; AVal "rhs"] ]
    [EVar "out"].

(* src/field/mod_e382_105.rs:1909-1964  PrimeField  F::small_mul_assign *)
Definition f_small_mul_assign : func := mkfunc ["self"; "rhs"] [
    (*1910*) "a0" <- ("self".[#0]) .& #0x0fffffff;
    (*1911*) "a1" <- ("self".[#0]) .>> #28;
    (*1912*) "a2" <- ("self".[#1]) .& #0x0fffffff;
    (*1913*) "a3" <- ("self".[#1]) .>> #28;
    (*1914*) "a4" <- ("self".[#2]) .& #0x0fffffff;
    (*1915*) "a5" <- ("self".[#2]) .>> #28;
    (*1916*) "a6" <- ("self".[#3]) .& #0x0fffffff;
    (*1917*) "a7" <- ("self".[#3]) .>> #28;
    (*1918*) "a8" <- ("self".[#4]) .& #0x0fffffff;
    (*1919*) "a9" <- ("self".[#4]) .>> #28;
    (*1920*) "a10" <- ("self".[#5]) .& #0x0fffffff;
    (*1921*) "a11" <- ("self".[#5]) .>> #28;
    (*1922*) "a12" <- ("self".[#6]) .& #0x0fffffff;
    (*1923*) "a13" <- ("self".[#6]) .>> #28;
    (*1925*) "b" <- ECast I64 "rhs";
    (*1927*) "m0" <- "a0" .* "b";
    (*1928*) "m1" <- "a1" .* "b";
    (*1929*) "m2" <- "a2" .* "b";
    (*1930*) "m3" <- "a3" .* "b";
    (*1931*) "m4" <- "a4" .* "b";
    (*1932*) "m5" <- "a5" .* "b";
    (*1933*) "m6" <- "a6" .* "b";
    (*1934*) "m7" <- "a7" .* "b";
    (*1935*) "m8" <- "a8" .* "b";
    (*1936*) "m9" <- "a9" .* "b";
    (*1937*) "m10" <- "a10" .* "b";
    (*1938*) "m11" <- "a11" .* "b";
    (*1939*) "m12" <- "a12" .* "b";
    (*1940*) "m13" <- "a13" .* "b";
    (*1942*) "cin" <- carry_out "self";
    (*1943*) "d0" <- ("m0" .+ (("m1" .& #0x0fffffff) .<< #28)) .+ ("cin" .* (EInt C_VAL));
    (*1944*) "c0" <- "d0" .>> #56;
    (*1945*) "d1" <- ((("m1" .>> #28) .+ "m2") .+ (("m3" .& #0x0fffffff) .<< #28)) .+ "c0";
    (*1946*) "c1" <- "d1" .>> #56;
    (*1947*) "d2" <- ((("m3" .>> #28) .+ "m4") .+ (("m5" .& #0x0fffffff) .<< #28)) .+ "c1";
    (*1948*) "c2" <- "d2" .>> #56;
    (*1949*) "d3" <- ((("m5" .>> #28) .+ "m6") .+ (("m7" .& #0x0fffffff) .<< #28)) .+ "c2";
    (*1950*) "c3" <- "d3" .>> #56;
    (*1951*) "d4" <- ((("m7" .>> #28) .+ "m8") .+ (("m9" .& #0x0fffffff) .<< #28)) .+ "c3";
    (*1952*) "c4" <- "d4" .>> #56;
    (*1953*) "d5" <- ((("m9" .>> #28) .+ "m10") .+ (("m11" .& #0x0fffffff) .<< #28)) .+ "c4";
    (*1954*) "c5" <- "d5" .>> #56;
    (*1955*) "d6" <- ((("m11" .>> #28) .+ "m12") .+ ("m13" .<< #28)) .+ "c5";
    (*1957*) SSet "self" #0 ("d0" .& #0x00ffffffffffffff);
    (*1958*) SSet "self" #1 ("d1" .& #0x00ffffffffffffff);
    (*1959*) SSet "self" #2 ("d2" .& #0x00ffffffffffffff);
    (*1960*) SSet "self" #3 ("d3" .& #0x00ffffffffffffff);
    (*1961*) SSet "self" #4 ("d4" .& #0x00ffffffffffffff);
    (*1962*) SSet "self" #5 ("d5" .& #0x00ffffffffffffff);
    (*1963*) SSet "self" #6 ("d6") ]
    [].

(* src/field/mod_e382_105.rs:1966-1972  PrimeField  F::small_mul *)
Definition f_small_mul : func := mkfunc ["self"; "b"] [
    (*1967*) "out" <- "self";
    (*1969*) SCall [] "F::small_mul_assign" [AMut "out"; AVal "b"] ]
    [EVar "out"].

(* the function table of this file: every non-test function *)
Definition table : list (string * func) := [
  ("F::Debug::fmt", f_Debug_fmt);
  ("F::LowerHex::fmt", f_LowerHex_fmt);
  ("F::UpperHex::fmt", f_UpperHex_fmt);
  ("F::packed", f_packed);
  ("F::neg", f_neg);
  ("F::add_assign(&F)", f_add_assign_ref);
  ("F::add_assign(F)", f_add_assign_val);
  ("F::add_assign(i32)", f_add_assign_i32);
  ("F::add_assign(i16)", f_add_assign_i16);
  ("F::add_assign(i8)", f_add_assign_i8);
  ("(&F)::add(&F)", f_ref_add_ref);
  ("F::add(F)", f_add_val);
  ("i32::add(&F)", f_i32_add_ref);
  ("i16::add(&F)", f_i16_add_ref);
  ("i8::add(&F)", f_i8_add_ref);
  ("(&F)::add(i32)", f_ref_add_i32);
  ("(&F)::add(i16)", f_ref_add_i16);
  ("(&F)::add(i8)", f_ref_add_i8);
  ("F::add(i32)", f_add_i32);
  ("F::add(i16)", f_add_i16);
  ("F::add(i8)", f_add_i8);
  ("F::div_assign(&F)", f_div_assign_ref);
  ("F::div_assign(F)", f_div_assign_val);
  ("(&F)::div(&F)", f_ref_div_ref);
  ("F::div(F)", f_div_val);
  ("F::sub_assign(&F)", f_sub_assign_ref);
  ("F::sub_assign(F)", f_sub_assign_val);
  ("F::sub_assign(i32)", f_sub_assign_i32);
  ("F::sub_assign(i16)", f_sub_assign_i16);
  ("F::sub_assign(i8)", f_sub_assign_i8);
  ("F::sub(i32)", f_sub_i32);
  ("F::sub(i16)", f_sub_i16);
  ("F::sub(i8)", f_sub_i8);
  ("(&F)::sub(&F)", f_ref_sub_ref);
  ("F::sub(F)", f_sub_val);
  ("(&F)::sub(i32)", f_ref_sub_i32);
  ("(&F)::sub(i16)", f_ref_sub_i16);
  ("(&F)::sub(i8)", f_ref_sub_i8);
  ("F::mul_assign(i32)", f_mul_assign_i32);
  ("F::mul_assign(i16)", f_mul_assign_i16);
  ("F::mul_assign(i8)", f_mul_assign_i8);
  ("F::mul_assign(&F)", f_mul_assign_ref);
  ("F::mul_assign(F)", f_mul_assign_val);
  ("i32::mul(&F)", f_i32_mul_ref);
  ("i16::mul(&F)", f_i16_mul_ref);
  ("i8::mul(&F)", f_i8_mul_ref);
  ("(&F)::mul(i32)", f_ref_mul_i32);
  ("(&F)::mul(i16)", f_ref_mul_i16);
  ("(&F)::mul(i8)", f_ref_mul_i8);
  ("F::mul(i32)", f_mul_i32);
  ("F::mul(i16)", f_mul_i16);
  ("F::mul(i8)", f_mul_i8);
  ("(&F)::mul(&F)", f_ref_mul_ref);
  ("F::mul(F)", f_mul_val);
  ("F::rand", f_rand);
  ("F::unpack", f_unpack);
  ("F::unpacked", f_unpacked);
  ("F::pack", f_pack);
  ("F::pack_normalized", f_pack_normalized);
  ("F::nbytes", f_nbytes);
  ("F::normalize", f_normalize);
  ("F::normalize_self_eq", f_normalize_self_eq);
  ("F::normalize_eq", f_normalize_eq);
  ("Mask::fill", f_Mask_fill);
  ("Mask::filled", f_Mask_filled);
  ("F::fill", f_fill);
  ("F::filled", f_filled);
  ("F::nbits", f_nbits);
  ("F::bit_normalized", f_bit_normalized);
  ("F::bit", f_bit);
  ("F::normalize_bitand", f_normalize_bitand);
  ("F::normalize_self_bitand", f_normalize_self_bitand);
  ("F::normalized_bitand", f_normalized_bitand);
  ("F::normalize_bitor", f_normalize_bitor);
  ("F::normalize_self_bitor", f_normalize_self_bitor);
  ("F::normalized_bitor", f_normalized_bitor);
  ("F::zero", f_zero);
  ("F::one", f_one);
  ("F::m_one", f_m_one);
  ("F::modulus", f_modulus);
  ("F::square", f_square);
  ("F::squared", f_squared);
  ("F::invert", f_invert);
  ("F::inverted", f_inverted);
  ("F::legendre", f_legendre);
  ("F::sqrt", f_sqrt);
  ("F::small_add_assign", f_small_add_assign);
  ("F::small_add", f_small_add);
  ("F::small_sub_assign", f_small_sub_assign);
  ("F::small_sub", f_small_sub);
  ("F::small_mul_assign", f_small_mul_assign);
  ("F::small_mul", f_small_mul)].
