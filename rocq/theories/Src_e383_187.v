(* Generated by tools/rust2coq.py from src/field/mod_e383_187.rs -- do not edit.
   One definition per item; each statement is preceded by its source line. *)
From Coq Require Import ZArith List String.
From Verif Require Import Lang.
Import ListNotations LangNotations.
Local Open Scope Z_scope.
Local Open Scope string_scope.

(* src/field/mod_e383_187.rs:41 *)
Definition C_VAL : Z := 187.

(* src/field/mod_e383_187.rs:44-44 *)
Definition ZERO : list Z := [0; 0; 0; 0; 0; 0; 0].

(* src/field/mod_e383_187.rs:47-47 *)
Definition ONE : list Z := [1; 0; 0; 0; 0; 0; 0].

(* src/field/mod_e383_187.rs:50-54 *)
Definition M_ONE : list Z := [0x00ffffffffffff44; 0x00ffffffffffffff; 0x00ffffffffffffff; 0x00ffffffffffffff; 0x00ffffffffffffff; 0x00ffffffffffffff; 0x00007fffffffffff].

(* src/field/mod_e383_187.rs:57-61 *)
Definition MODULUS : list Z := [0x00ffffffffffff45; 0x00ffffffffffffff; 0x00ffffffffffffff; 0x00ffffffffffffff; 0x00ffffffffffffff; 0x00ffffffffffffff; 0x00007fffffffffff].

(* src/field/mod_e383_187.rs:64-68 *)
Definition M_HALF : list Z := [0x00ffffffffffffa2; 0x00ffffffffffffff; 0x00ffffffffffffff; 0x00ffffffffffffff; 0x00ffffffffffffff; 0x00ffffffffffffff; 0x00003fffffffffff].

(* src/field/mod_e383_187.rs:70-74 *)
Definition COEFF : list Z := [0x003bd5336eddd6d9; 0x00b000cb8732e0d4; 0x0012dde4b0a4da30; 0x0094425c260e338b; 0x0015c9a422471129; 0x00730f48097cfdb0; 0x000024617df95ff4].

(* src/field/mod_e383_187.rs:77-77 *)
Definition M383_BASE_X : list Z := [0xc; 0; 0; 0; 0; 0; 0].

(* src/field/mod_e383_187.rs:81-85 *)
Definition M383_BASE_Y : list Z := [0x009991b62555e77e; 0x002e7d0b6e332e96; 0x001290f617aa1f1b; 0x00e8988abd399286; 0x00a0f328e7c165f0; 0x0034af310e304b2d; 0x00001ec7ed04aaf8].

(* src/field/mod_e383_187.rs:89-92 *)
Definition M383_ORDER : list Z := [0x00bbc225be9071d7; 0x00576f7b1b249e46; 0x0073ac36ba6e7a32; 0x000000000006c796; 0; 0; 0x0000100000000000].

(* src/field/mod_e383_187.rs:95-96 *)
Definition CURVE383187_BASE_X : list Z := [0x5; 0; 0; 0; 0; 0; 0].

(* src/field/mod_e383_187.rs:100-104 *)
Definition CURVE383187_BASE_Y : list Z := [0x0088457dd5ce46df; 0x003620c31af33707; 0x0055ab3cbd7c224e; 0x007a11f2c89865f8; 0x004a32370471965c; 0x001896732b12d550; 0x00001eebe07dc187].

(* src/field/mod_e383_187.rs:108-111 *)
Definition CURVE383187_ORDER : list Z := [0x00f72088b00a0e21; 0x00ae84b2b7030446; 0x005287a1488acd41; 0x00000000000e85a8; 0; 0; 0x0000100000000000].

(* src/field/mod_e383_187.rs:155-157  inherent F::carry_out (one-line method, kept as a macro on its receiver) *)
Definition carry_out (self : expr) : expr := self.[#6] .>> #47.

(* src/field/mod_e383_187.rs:114-122  Debug  F::Debug::fmt *)
Definition f_Debug_fmt : func := mkfunc ["self"; "f"] [
    (*115*) SPushStr "f" "Mod_e383_187: [ ";
    (*115*) SPushHex "f" false false 64 ("self".[#0]);
    (*117*) SFor "i" #1 #7 [
      (*118*) SPushStr "f" ", ";
      (*118*) SPushHex "f" false false 64 ("self".["i"]) ];
    (*121*) SPushStr "f" " ]" ]
    [].

(* src/field/mod_e383_187.rs:126-135  LowerHex  F::LowerHex::fmt *)
Definition f_LowerHex_fmt : func := mkfunc ["self"; "f"] [
    (*127*) "cpy" <- "self";
    (*128*) SCall ["bytes"] "F::packed" [AMut "cpy"];
    (*130*) SFor "i" #0 #48 [
      (*131*) SPushHex "f" false true 8 ("bytes".[EUSub #47 "i"]) ] ]
    [].

(* src/field/mod_e383_187.rs:139-148  UpperHex  F::UpperHex::fmt *)
Definition f_UpperHex_fmt : func := mkfunc ["self"; "f"] [
    (*140*) "cpy" <- "self";
    (*141*) SCall ["bytes"] "F::packed" [AMut "cpy"];
    (*143*) SFor "i" #0 #48 [
      (*144*) SPushHex "f" true true 8 ("bytes".[EUSub #47 "i"]) ] ]
    [].

(* src/field/mod_e383_187.rs:161-165  inherent  F::packed *)
Definition f_packed : func := mkfunc ["self"] [
    (*162*) "out" <- ERep #0 48;
    (*163*) SCall [] "F::pack" [AMut "self"; AMut "out"] ]
    [EVar "out"].

(* src/field/mod_e383_187.rs:167-191  inherent  F::quartic_legendre *)
Definition f_quartic_legendre : func := mkfunc ["self"] [
    (*169*) "sqval" <- "self";
    (*170*) "out" <- "self";
    (*173*) SCall [] "F::square" [AMut "sqval"];
    (*174*) SCall [] "F::square" [AMut "sqval"];
    (*175*) SCall [] "F::square" [AMut "sqval"];
    (*178*) SCall [] "F::square" [AMut "sqval"];
    (*179*) SCall [] "F::mul_assign(&F)" [AMut "out"; AVal "sqval"];
    (*182*) SCall [] "F::square" [AMut "sqval"];
    (*185*) SFor "_" #6 #381 [
      (*186*) SCall [] "F::square" [AMut "sqval"];
      (*187*) SCall [] "F::mul_assign(&F)" [AMut "out"; AVal "sqval"] ] ]
    [EVar "out"].

(* src/field/mod_e383_187.rs:197-202  Neg  F::neg *)
Definition f_neg : func := mkfunc ["self"] [
    (*198*) "out" <- "self";
    (*200*) SCall [] "F::add_assign(&F)" [AMut "out"; AVal (ELit MODULUS)] ]
    [EVar "out"].

(* src/field/mod_e383_187.rs:206-245  AddAssign<&F>  F::add_assign(&F) *)
Definition f_add_assign_ref : func := mkfunc ["self"; "rhs"] [
    (*207*) "a0" <- "self".[#0];
    (*208*) "a1" <- "self".[#1];
    (*209*) "a2" <- "self".[#2];
    (*210*) "a3" <- "self".[#3];
    (*211*) "a4" <- "self".[#4];
    (*212*) "a5" <- "self".[#5];
    (*213*) "a6" <- ("self".[#6]) .& #0x00007fffffffffff;
    (*215*) "b0" <- "rhs".[#0];
    (*216*) "b1" <- "rhs".[#1];
    (*217*) "b2" <- "rhs".[#2];
    (*218*) "b3" <- "rhs".[#3];
    (*219*) "b4" <- "rhs".[#4];
    (*220*) "b5" <- "rhs".[#5];
    (*221*) "b6" <- ("rhs".[#6]) .& #0x00007fffffffffff;
    (*223*) "cin" <- (carry_out "self") .+ (carry_out "rhs");
    (*224*) "s0" <- ("a0" .+ "b0") .+ ("cin" .* (EInt C_VAL));
    (*225*) "c0" <- "s0" .>> #56;
    (*226*) "s1" <- ("a1" .+ "b1") .+ "c0";
    (*227*) "c1" <- "s1" .>> #56;
    (*228*) "s2" <- ("a2" .+ "b2") .+ "c1";
    (*229*) "c2" <- "s2" .>> #56;
    (*230*) "s3" <- ("a3" .+ "b3") .+ "c2";
    (*231*) "c3" <- "s3" .>> #56;
    (*232*) "s4" <- ("a4" .+ "b4") .+ "c3";
    (*233*) "c4" <- "s4" .>> #56;
    (*234*) "s5" <- ("a5" .+ "b5") .+ "c4";
    (*235*) "c5" <- "s5" .>> #56;
    (*236*) "s6" <- ("a6" .+ "b6") .+ "c5";
    (*238*) SSet "self" #0 ("s0" .& #0x00ffffffffffffff);
    (*239*) SSet "self" #1 ("s1" .& #0x00ffffffffffffff);
    (*240*) SSet "self" #2 ("s2" .& #0x00ffffffffffffff);
    (*241*) SSet "self" #3 ("s3" .& #0x00ffffffffffffff);
    (*242*) SSet "self" #4 ("s4" .& #0x00ffffffffffffff);
    (*243*) SSet "self" #5 ("s5" .& #0x00ffffffffffffff);
    (*244*) SSet "self" #6 ("s6") ]
    [].

(* src/field/mod_e383_187.rs:249-251  AddAssign<F>  F::add_assign(F) *)
Definition f_add_assign_val : func := mkfunc ["self"; "rhs"] [
    (*250*) SCall [] "F::add_assign(&F)" [AMut "self"; AVal "rhs"] ]
    [].

(* src/field/mod_e383_187.rs:255-257  AddAssign<i32>  F::add_assign(i32) *)
Definition f_add_assign_i32 : func := mkfunc ["self"; "rhs"] [
    (*256*) SCall [] "F::small_add_assign" [AMut "self"; AVal "rhs"] ]
    [].

(* src/field/mod_e383_187.rs:261-263  AddAssign<i16>  F::add_assign(i16) *)
Definition f_add_assign_i16 : func := mkfunc ["self"; "rhs"] [
    (*262*) SCall [] "F::small_add_assign" [AMut "self"; AVal (ECast I32 "rhs")] ]
    [].

(* src/field/mod_e383_187.rs:267-269  AddAssign<i8>  F::add_assign(i8) *)
Definition f_add_assign_i8 : func := mkfunc ["self"; "rhs"] [
    (*268*) SCall [] "F::small_add_assign" [AMut "self"; AVal (ECast I32 "rhs")] ]
    [].

(* src/field/mod_e383_187.rs:275-279  Add<&F>  (&F)::add(&F) *)
Definition f_ref_add_ref : func := mkfunc ["self"; "a"] [
    (*276*) "out" <- "self";
    (*277*) SCall [] "F::add_assign(&F)" [AMut "out"; AVal "a"] ]
    [EVar "out"].

(* src/field/mod_e383_187.rs:285-287  Add<F>  F::add(F) *)
Definition f_add_val : func := mkfunc ["self"; "a"] [
    (*286*) SCall ["%1"] "(&F)::add(&F)" [AVal "self"; AVal "a"] ]
    [EVar "%1"].

(* src/field/mod_e383_187.rs:293-295  Add<&F>  i32::add(&F) *)
Definition f_i32_add_ref : func := mkfunc ["self"; "a"] [
    (*294*) SCall ["%1"] "F::small_add" [AVal "a"; AVal "self"] ]
    [EVar "%1"].

(* src/field/mod_e383_187.rs:301-303  Add<&F>  i16::add(&F) *)
Definition f_i16_add_ref : func := mkfunc ["self"; "a"] [
    (*302*) SCall ["%1"] "F::small_add" [AVal "a"; AVal (ECast I32 "self")] ]
    [EVar "%1"].

(* src/field/mod_e383_187.rs:309-311  Add<&F>  i8::add(&F) *)
Definition f_i8_add_ref : func := mkfunc ["self"; "a"] [
    (*310*) SCall ["%1"] "F::small_add" [AVal "a"; AVal (ECast I32 "self")] ]
    [EVar "%1"].

(* src/field/mod_e383_187.rs:317-319  Add<i32>  (&F)::add(i32) *)
Definition f_ref_add_i32 : func := mkfunc ["self"; "a"] [
    (*318*) SCall ["%1"] "F::small_add" [AVal "self"; AVal "a"] ]
    [EVar "%1"].

(* src/field/mod_e383_187.rs:325-327  Add<i16>  (&F)::add(i16) *)
Definition f_ref_add_i16 : func := mkfunc ["self"; "a"] [
    (*326*) SCall ["%1"] "F::small_add" [AVal "self"; AVal (ECast I32 "a")] ]
    [EVar "%1"].

(* src/field/mod_e383_187.rs:333-335  Add<i8>  (&F)::add(i8) *)
Definition f_ref_add_i8 : func := mkfunc ["self"; "a"] [
    (*334*) SCall ["%1"] "F::small_add" [AVal "self"; AVal (ECast I32 "a")] ]
    [EVar "%1"].

(* src/field/mod_e383_187.rs:341-343  Add<i32>  F::add(i32) *)
Definition f_add_i32 : func := mkfunc ["self"; "a"] [
    (*342*) SCall ["%1"] "(&F)::add(i32)" [AVal "self"; AVal "a"] ]
    [EVar "%1"].

(* src/field/mod_e383_187.rs:349-351  Add<i16>  F::add(i16) *)
Definition f_add_i16 : func := mkfunc ["self"; "a"] [
    (*350*) SCall ["%1"] "(&F)::add(i16)" [AVal "self"; AVal "a"] ]
    [EVar "%1"].

(* src/field/mod_e383_187.rs:357-359  Add<i8>  F::add(i8) *)
Definition f_add_i8 : func := mkfunc ["self"; "a"] [
    (*358*) SCall ["%1"] "(&F)::add(i8)" [AVal "self"; AVal "a"] ]
    [EVar "%1"].

(* src/field/mod_e383_187.rs:363-365  DivAssign<&F>  F::div_assign(&F) *)
Definition f_div_assign_ref : func := mkfunc ["self"; "rhs"] [
    (*364*) SCall ["%1"] "F::inverted" [AVal "rhs"];
    (*364*) SCall [] "F::mul_assign(&F)" [AMut "self"; AVal "%1"] ]
    [].

(* src/field/mod_e383_187.rs:369-371  DivAssign<F>  F::div_assign(F) *)
Definition f_div_assign_val : func := mkfunc ["self"; "rhs"] [
    (*370*) SCall [] "F::div_assign(&F)" [AMut "self"; AVal "rhs"] ]
    [].

(* src/field/mod_e383_187.rs:377-381  Div<&F>  (&F)::div(&F) *)
Definition f_ref_div_ref : func := mkfunc ["self"; "a"] [
    (*378*) "out" <- "self";
    (*379*) SCall [] "F::div_assign(&F)" [AMut "out"; AVal "a"] ]
    [EVar "out"].

(* src/field/mod_e383_187.rs:387-389  Div<F>  F::div(F) *)
Definition f_div_val : func := mkfunc ["self"; "a"] [
    (*388*) SCall ["%1"] "(&F)::div(&F)" [AVal "self"; AVal "a"] ]
    [EVar "%1"].

(* src/field/mod_e383_187.rs:393-432  SubAssign<&F>  F::sub_assign(&F) *)
Definition f_sub_assign_ref : func := mkfunc ["self"; "rhs"] [
    (*394*) "a0" <- "self".[#0];
    (*395*) "a1" <- "self".[#1];
    (*396*) "a2" <- "self".[#2];
    (*397*) "a3" <- "self".[#3];
    (*398*) "a4" <- "self".[#4];
    (*399*) "a5" <- "self".[#5];
    (*400*) "a6" <- ("self".[#6]) .& #0x00007fffffffffff;
    (*402*) "b0" <- "rhs".[#0];
    (*403*) "b1" <- "rhs".[#1];
    (*404*) "b2" <- "rhs".[#2];
    (*405*) "b3" <- "rhs".[#3];
    (*406*) "b4" <- "rhs".[#4];
    (*407*) "b5" <- "rhs".[#5];
    (*408*) "b6" <- ("rhs".[#6]) .& #0x00007fffffffffff;
    (*410*) "cin" <- (carry_out "self") .+ (carry_out "rhs");
    (*411*) "s0" <- ("a0" .- "b0") .+ ("cin" .* (EInt C_VAL));
    (*412*) "c0" <- "s0" .>> #56;
    (*413*) "s1" <- ("a1" .- "b1") .+ "c0";
    (*414*) "c1" <- "s1" .>> #56;
    (*415*) "s2" <- ("a2" .- "b2") .+ "c1";
    (*416*) "c2" <- "s2" .>> #56;
    (*417*) "s3" <- ("a3" .- "b3") .+ "c2";
    (*418*) "c3" <- "s3" .>> #56;
    (*419*) "s4" <- ("a4" .- "b4") .+ "c3";
    (*420*) "c4" <- "s4" .>> #56;
    (*421*) "s5" <- ("a5" .- "b5") .+ "c4";
    (*422*) "c5" <- "s5" .>> #56;
    (*423*) "s6" <- ("a6" .- "b6") .+ "c5";
    (*425*) SSet "self" #0 ("s0" .& #0x00ffffffffffffff);
    (*426*) SSet "self" #1 ("s1" .& #0x00ffffffffffffff);
    (*427*) SSet "self" #2 ("s2" .& #0x00ffffffffffffff);
    (*428*) SSet "self" #3 ("s3" .& #0x00ffffffffffffff);
    (*429*) SSet "self" #4 ("s4" .& #0x00ffffffffffffff);
    (*430*) SSet "self" #5 ("s5" .& #0x00ffffffffffffff);
    (*431*) SSet "self" #6 ("s6") ]
    [].

(* src/field/mod_e383_187.rs:436-438  SubAssign<F>  F::sub_assign(F) *)
Definition f_sub_assign_val : func := mkfunc ["self"; "rhs"] [
    (*437*) SCall [] "F::sub_assign(&F)" [AMut "self"; AVal "rhs"] ]
    [].

(* src/field/mod_e383_187.rs:442-444  SubAssign<i32>  F::sub_assign(i32) *)
Definition f_sub_assign_i32 : func := mkfunc ["self"; "rhs"] [
    (*443*) SCall [] "F::small_sub_assign" [AMut "self"; AVal "rhs"] ]
    [].

(* src/field/mod_e383_187.rs:448-450  SubAssign<i16>  F::sub_assign(i16) *)
Definition f_sub_assign_i16 : func := mkfunc ["self"; "rhs"] [
    (*449*) SCall [] "F::small_sub_assign" [AMut "self"; AVal (ECast I32 "rhs")] ]
    [].

(* src/field/mod_e383_187.rs:454-456  SubAssign<i8>  F::sub_assign(i8) *)
Definition f_sub_assign_i8 : func := mkfunc ["self"; "rhs"] [
    (*455*) SCall [] "F::small_sub_assign" [AMut "self"; AVal (ECast I32 "rhs")] ]
    [].

(* src/field/mod_e383_187.rs:462-464  Sub<i32>  F::sub(i32) *)
Definition f_sub_i32 : func := mkfunc ["self"; "a"] [
    (*463*) SCall ["%1"] "(&F)::sub(i32)" [AVal "self"; AVal "a"] ]
    [EVar "%1"].

(* src/field/mod_e383_187.rs:470-472  Sub<i16>  F::sub(i16) *)
Definition f_sub_i16 : func := mkfunc ["self"; "a"] [
    (*471*) SCall ["%1"] "(&F)::sub(i16)" [AVal "self"; AVal "a"] ]
    [EVar "%1"].

(* src/field/mod_e383_187.rs:478-480  Sub<i8>  F::sub(i8) *)
Definition f_sub_i8 : func := mkfunc ["self"; "a"] [
    (*479*) SCall ["%1"] "(&F)::sub(i8)" [AVal "self"; AVal "a"] ]
    [EVar "%1"].

(* src/field/mod_e383_187.rs:486-490  Sub<&F>  (&F)::sub(&F) *)
Definition f_ref_sub_ref : func := mkfunc ["self"; "a"] [
    (*487*) "out" <- "self";
    (*488*) SCall [] "F::sub_assign(&F)" [AMut "out"; AVal "a"] ]
    [EVar "out"].

(* src/field/mod_e383_187.rs:496-498  Sub<F>  F::sub(F) *)
Definition f_sub_val : func := mkfunc ["self"; "a"] [
    (*497*) SCall ["%1"] "(&F)::sub(&F)" [AVal "self"; AVal "a"] ]
    [EVar "%1"].

(* src/field/mod_e383_187.rs:504-506  Sub<i32>  (&F)::sub(i32) *)
Definition f_ref_sub_i32 : func := mkfunc ["self"; "a"] [
    (*505*) SCall ["%1"] "F::small_sub" [AVal "self"; AVal "a"] ]
    [EVar "%1"].

(* src/field/mod_e383_187.rs:512-514  Sub<i16>  (&F)::sub(i16) *)
Definition f_ref_sub_i16 : func := mkfunc ["self"; "a"] [
    (*513*) SCall ["%1"] "F::small_sub" [AVal "self"; AVal (ECast I32 "a")] ]
    [EVar "%1"].

(* src/field/mod_e383_187.rs:520-522  Sub<i8>  (&F)::sub(i8) *)
Definition f_ref_sub_i8 : func := mkfunc ["self"; "a"] [
    (*521*) SCall ["%1"] "F::small_sub" [AVal "self"; AVal (ECast I32 "a")] ]
    [EVar "%1"].

(* src/field/mod_e383_187.rs:526-528  MulAssign<i32>  F::mul_assign(i32) *)
Definition f_mul_assign_i32 : func := mkfunc ["self"; "rhs"] [
    (*527*) SCall [] "F::small_mul_assign" [AMut "self"; AVal "rhs"] ]
    [].

(* src/field/mod_e383_187.rs:532-534  MulAssign<i16>  F::mul_assign(i16) *)
Definition f_mul_assign_i16 : func := mkfunc ["self"; "rhs"] [
    (*533*) SCall [] "F::small_mul_assign" [AMut "self"; AVal (ECast I32 "rhs")] ]
    [].

(* src/field/mod_e383_187.rs:538-540  MulAssign<i8>  F::mul_assign(i8) *)
Definition f_mul_assign_i8 : func := mkfunc ["self"; "rhs"] [
    (*539*) SCall [] "F::small_mul_assign" [AMut "self"; AVal (ECast I32 "rhs")] ]
    [].

(* src/field/mod_e383_187.rs:544-1000  MulAssign<&F>  F::mul_assign(&F) *)
Definition f_mul_assign_ref : func := mkfunc ["self"; "rhs"] [
    (*545*) "a0" <- ("self".[#0]) .& #0x0fffffff;
    (*546*) "a1" <- ("self".[#0]) .>> #28;
    (*547*) "a2" <- ("self".[#1]) .& #0x0fffffff;
    (*548*) "a3" <- ("self".[#1]) .>> #28;
    (*549*) "a4" <- ("self".[#2]) .& #0x0fffffff;
    (*550*) "a5" <- ("self".[#2]) .>> #28;
    (*551*) "a6" <- ("self".[#3]) .& #0x0fffffff;
    (*552*) "a7" <- ("self".[#3]) .>> #28;
    (*553*) "a8" <- ("self".[#4]) .& #0x0fffffff;
    (*554*) "a9" <- ("self".[#4]) .>> #28;
    (*555*) "a10" <- ("self".[#5]) .& #0x0fffffff;
    (*556*) "a11" <- ("self".[#5]) .>> #28;
    (*557*) "a12" <- ("self".[#6]) .& #0x0fffffff;
    (*558*) "a13" <- ("self".[#6]) .>> #28;
    (*560*) "b0" <- ("rhs".[#0]) .& #0x0fffffff;
    (*561*) "b1" <- ("rhs".[#0]) .>> #28;
    (*562*) "b2" <- ("rhs".[#1]) .& #0x0fffffff;
    (*563*) "b3" <- ("rhs".[#1]) .>> #28;
    (*564*) "b4" <- ("rhs".[#2]) .& #0x0fffffff;
    (*565*) "b5" <- ("rhs".[#2]) .>> #28;
    (*566*) "b6" <- ("rhs".[#3]) .& #0x0fffffff;
    (*567*) "b7" <- ("rhs".[#3]) .>> #28;
    (*568*) "b8" <- ("rhs".[#4]) .& #0x0fffffff;
    (*569*) "b9" <- ("rhs".[#4]) .>> #28;
    (*570*) "b10" <- ("rhs".[#5]) .& #0x0fffffff;
    (*571*) "b11" <- ("rhs".[#5]) .>> #28;
    (*572*) "b12" <- ("rhs".[#6]) .& #0x0fffffff;
    (*573*) "b13" <- ("rhs".[#6]) .>> #28;
    (*576*) "m_0_0" <- "a0" .* "b0";
    (*577*) "m_0_1" <- "a0" .* "b1";
    (*578*) "m_0_2" <- "a0" .* "b2";
    (*579*) "m_0_3" <- "a0" .* "b3";
    (*580*) "m_0_4" <- "a0" .* "b4";
    (*581*) "m_0_5" <- "a0" .* "b5";
    (*582*) "m_0_6" <- "a0" .* "b6";
    (*583*) "m_0_7" <- "a0" .* "b7";
    (*584*) "m_0_8" <- "a0" .* "b8";
    (*585*) "m_0_9" <- "a0" .* "b9";
    (*586*) "m_0_10" <- "a0" .* "b10";
    (*587*) "m_0_11" <- "a0" .* "b11";
    (*588*) "m_0_12" <- "a0" .* "b12";
    (*589*) "m_0_13" <- "a0" .* "b13";
    (*590*) "m_1_0" <- "a1" .* "b0";
    (*591*) "m_1_1" <- "a1" .* "b1";
    (*592*) "m_1_2" <- "a1" .* "b2";
    (*593*) "m_1_3" <- "a1" .* "b3";
    (*594*) "m_1_4" <- "a1" .* "b4";
    (*595*) "m_1_5" <- "a1" .* "b5";
    (*596*) "m_1_6" <- "a1" .* "b6";
    (*597*) "m_1_7" <- "a1" .* "b7";
    (*598*) "m_1_8" <- "a1" .* "b8";
    (*599*) "m_1_9" <- "a1" .* "b9";
    (*600*) "m_1_10" <- "a1" .* "b10";
    (*601*) "m_1_11" <- "a1" .* "b11";
    (*602*) "m_1_12" <- "a1" .* "b12";
    (*603*) "m_1_13" <- "a1" .* "b13";
    (*604*) "m_2_0" <- "a2" .* "b0";
    (*605*) "m_2_1" <- "a2" .* "b1";
    (*606*) "m_2_2" <- "a2" .* "b2";
    (*607*) "m_2_3" <- "a2" .* "b3";
    (*608*) "m_2_4" <- "a2" .* "b4";
    (*609*) "m_2_5" <- "a2" .* "b5";
    (*610*) "m_2_6" <- "a2" .* "b6";
    (*611*) "m_2_7" <- "a2" .* "b7";
    (*612*) "m_2_8" <- "a2" .* "b8";
    (*613*) "m_2_9" <- "a2" .* "b9";
    (*614*) "m_2_10" <- "a2" .* "b10";
    (*615*) "m_2_11" <- "a2" .* "b11";
    (*616*) "m_2_12" <- "a2" .* "b12";
    (*617*) "m_2_13" <- "a2" .* "b13";
    (*618*) "m_3_0" <- "a3" .* "b0";
    (*619*) "m_3_1" <- "a3" .* "b1";
    (*620*) "m_3_2" <- "a3" .* "b2";
    (*621*) "m_3_3" <- "a3" .* "b3";
    (*622*) "m_3_4" <- "a3" .* "b4";
    (*623*) "m_3_5" <- "a3" .* "b5";
    (*624*) "m_3_6" <- "a3" .* "b6";
    (*625*) "m_3_7" <- "a3" .* "b7";
    (*626*) "m_3_8" <- "a3" .* "b8";
    (*627*) "m_3_9" <- "a3" .* "b9";
    (*628*) "m_3_10" <- "a3" .* "b10";
    (*629*) "m_3_11" <- "a3" .* "b11";
    (*630*) "m_3_12" <- "a3" .* "b12";
    (*631*) "m_3_13" <- "a3" .* "b13";
    (*632*) "m_4_0" <- "a4" .* "b0";
    (*633*) "m_4_1" <- "a4" .* "b1";
    (*634*) "m_4_2" <- "a4" .* "b2";
    (*635*) "m_4_3" <- "a4" .* "b3";
    (*636*) "m_4_4" <- "a4" .* "b4";
    (*637*) "m_4_5" <- "a4" .* "b5";
    (*638*) "m_4_6" <- "a4" .* "b6";
    (*639*) "m_4_7" <- "a4" .* "b7";
    (*640*) "m_4_8" <- "a4" .* "b8";
    (*641*) "m_4_9" <- "a4" .* "b9";
    (*642*) "m_4_10" <- "a4" .* "b10";
    (*643*) "m_4_11" <- "a4" .* "b11";
    (*644*) "m_4_12" <- "a4" .* "b12";
    (*645*) "m_4_13" <- "a4" .* "b13";
    (*646*) "m_5_0" <- "a5" .* "b0";
    (*647*) "m_5_1" <- "a5" .* "b1";
    (*648*) "m_5_2" <- "a5" .* "b2";
    (*649*) "m_5_3" <- "a5" .* "b3";
    (*650*) "m_5_4" <- "a5" .* "b4";
    (*651*) "m_5_5" <- "a5" .* "b5";
    (*652*) "m_5_6" <- "a5" .* "b6";
    (*653*) "m_5_7" <- "a5" .* "b7";
    (*654*) "m_5_8" <- "a5" .* "b8";
    (*655*) "m_5_9" <- "a5" .* "b9";
    (*656*) "m_5_10" <- "a5" .* "b10";
    (*657*) "m_5_11" <- "a5" .* "b11";
    (*658*) "m_5_12" <- "a5" .* "b12";
    (*659*) "m_5_13" <- "a5" .* "b13";
    (*660*) "m_6_0" <- "a6" .* "b0";
    (*661*) "m_6_1" <- "a6" .* "b1";
    (*662*) "m_6_2" <- "a6" .* "b2";
    (*663*) "m_6_3" <- "a6" .* "b3";
    (*664*) "m_6_4" <- "a6" .* "b4";
    (*665*) "m_6_5" <- "a6" .* "b5";
    (*666*) "m_6_6" <- "a6" .* "b6";
    (*667*) "m_6_7" <- "a6" .* "b7";
    (*668*) "m_6_8" <- "a6" .* "b8";
    (*669*) "m_6_9" <- "a6" .* "b9";
    (*670*) "m_6_10" <- "a6" .* "b10";
    (*671*) "m_6_11" <- "a6" .* "b11";
    (*672*) "m_6_12" <- "a6" .* "b12";
    (*673*) "m_6_13" <- "a6" .* "b13";
    (*674*) "m_7_0" <- "a7" .* "b0";
    (*675*) "m_7_1" <- "a7" .* "b1";
    (*676*) "m_7_2" <- "a7" .* "b2";
    (*677*) "m_7_3" <- "a7" .* "b3";
    (*678*) "m_7_4" <- "a7" .* "b4";
    (*679*) "m_7_5" <- "a7" .* "b5";
    (*680*) "m_7_6" <- "a7" .* "b6";
    (*681*) "m_7_7" <- "a7" .* "b7";
    (*682*) "m_7_8" <- "a7" .* "b8";
    (*683*) "m_7_9" <- "a7" .* "b9";
    (*684*) "m_7_10" <- "a7" .* "b10";
    (*685*) "m_7_11" <- "a7" .* "b11";
    (*686*) "m_7_12" <- "a7" .* "b12";
    (*687*) "m_7_13" <- "a7" .* "b13";
    (*688*) "m_8_0" <- "a8" .* "b0";
    (*689*) "m_8_1" <- "a8" .* "b1";
    (*690*) "m_8_2" <- "a8" .* "b2";
    (*691*) "m_8_3" <- "a8" .* "b3";
    (*692*) "m_8_4" <- "a8" .* "b4";
    (*693*) "m_8_5" <- "a8" .* "b5";
    (*694*) "m_8_6" <- "a8" .* "b6";
    (*695*) "m_8_7" <- "a8" .* "b7";
    (*696*) "m_8_8" <- "a8" .* "b8";
    (*697*) "m_8_9" <- "a8" .* "b9";
    (*698*) "m_8_10" <- "a8" .* "b10";
    (*699*) "m_8_11" <- "a8" .* "b11";
    (*700*) "m_8_12" <- "a8" .* "b12";
    (*701*) "m_8_13" <- "a8" .* "b13";
    (*702*) "m_9_0" <- "a9" .* "b0";
    (*703*) "m_9_1" <- "a9" .* "b1";
    (*704*) "m_9_2" <- "a9" .* "b2";
    (*705*) "m_9_3" <- "a9" .* "b3";
    (*706*) "m_9_4" <- "a9" .* "b4";
    (*707*) "m_9_5" <- "a9" .* "b5";
    (*708*) "m_9_6" <- "a9" .* "b6";
    (*709*) "m_9_7" <- "a9" .* "b7";
    (*710*) "m_9_8" <- "a9" .* "b8";
    (*711*) "m_9_9" <- "a9" .* "b9";
    (*712*) "m_9_10" <- "a9" .* "b10";
    (*713*) "m_9_11" <- "a9" .* "b11";
    (*714*) "m_9_12" <- "a9" .* "b12";
    (*715*) "m_9_13" <- "a9" .* "b13";
    (*716*) "m_10_0" <- "a10" .* "b0";
    (*717*) "m_10_1" <- "a10" .* "b1";
    (*718*) "m_10_2" <- "a10" .* "b2";
    (*719*) "m_10_3" <- "a10" .* "b3";
    (*720*) "m_10_4" <- "a10" .* "b4";
    (*721*) "m_10_5" <- "a10" .* "b5";
    (*722*) "m_10_6" <- "a10" .* "b6";
    (*723*) "m_10_7" <- "a10" .* "b7";
    (*724*) "m_10_8" <- "a10" .* "b8";
    (*725*) "m_10_9" <- "a10" .* "b9";
    (*726*) "m_10_10" <- "a10" .* "b10";
    (*727*) "m_10_11" <- "a10" .* "b11";
    (*728*) "m_10_12" <- "a10" .* "b12";
    (*729*) "m_10_13" <- "a10" .* "b13";
    (*730*) "m_11_0" <- "a11" .* "b0";
    (*731*) "m_11_1" <- "a11" .* "b1";
    (*732*) "m_11_2" <- "a11" .* "b2";
    (*733*) "m_11_3" <- "a11" .* "b3";
    (*734*) "m_11_4" <- "a11" .* "b4";
    (*735*) "m_11_5" <- "a11" .* "b5";
    (*736*) "m_11_6" <- "a11" .* "b6";
    (*737*) "m_11_7" <- "a11" .* "b7";
    (*738*) "m_11_8" <- "a11" .* "b8";
    (*739*) "m_11_9" <- "a11" .* "b9";
    (*740*) "m_11_10" <- "a11" .* "b10";
    (*741*) "m_11_11" <- "a11" .* "b11";
    (*742*) "m_11_12" <- "a11" .* "b12";
    (*743*) "m_11_13" <- "a11" .* "b13";
    (*744*) "m_12_0" <- "a12" .* "b0";
    (*745*) "m_12_1" <- "a12" .* "b1";
    (*746*) "m_12_2" <- "a12" .* "b2";
    (*747*) "m_12_3" <- "a12" .* "b3";
    (*748*) "m_12_4" <- "a12" .* "b4";
    (*749*) "m_12_5" <- "a12" .* "b5";
    (*750*) "m_12_6" <- "a12" .* "b6";
    (*751*) "m_12_7" <- "a12" .* "b7";
    (*752*) "m_12_8" <- "a12" .* "b8";
    (*753*) "m_12_9" <- "a12" .* "b9";
    (*754*) "m_12_10" <- "a12" .* "b10";
    (*755*) "m_12_11" <- "a12" .* "b11";
    (*756*) "m_12_12" <- "a12" .* "b12";
    (*757*) "m_12_13" <- "a12" .* "b13";
    (*758*) "m_13_0" <- "a13" .* "b0";
    (*759*) "m_13_1" <- "a13" .* "b1";
    (*760*) "m_13_2" <- "a13" .* "b2";
    (*761*) "m_13_3" <- "a13" .* "b3";
    (*762*) "m_13_4" <- "a13" .* "b4";
    (*763*) "m_13_5" <- "a13" .* "b5";
    (*764*) "m_13_6" <- "a13" .* "b6";
    (*765*) "m_13_7" <- "a13" .* "b7";
    (*766*) "m_13_8" <- "a13" .* "b8";
    (*767*) "m_13_9" <- "a13" .* "b9";
    (*768*) "m_13_10" <- "a13" .* "b10";
    (*769*) "m_13_11" <- "a13" .* "b11";
    (*770*) "m_13_12" <- "a13" .* "b12";
    (*771*) "m_13_13" <- "a13" .* "b13";
    (*774*) "d0" <- ("m_0_0" .+ (("m_0_1" .& #0x0fffffff) .<< #28)) .+ (("m_1_0" .& #0x0fffffff) .<< #28);
    (*776*) "c0" <- "d0" .>> #56;
    (*777*) "d1" <- ((((((((("m_0_1" .>> #28) .+ "m_0_2") .+ (("m_0_3" .& #0x0fffffff) .<< #28)) .+ ("m_1_0" .>> #28)) .+ "m_1_1") .+ (("m_1_2" .& #0x0fffffff) .<< #28)) .+ "m_2_0") .+ (("m_2_1" .& #0x0fffffff) .<< #28)) .+ (("m_3_0" .& #0x0fffffff) .<< #28)) .+ "c0";
    (*781*) "c1" <- "d1" .>> #56;
    (*782*) "d2" <- ((((((((((((((("m_0_3" .>> #28) .+ "m_0_4") .+ (("m_0_5" .& #0x0fffffff) .<< #28)) .+ ("m_1_2" .>> #28)) .+ "m_1_3") .+ (("m_1_4" .& #0x0fffffff) .<< #28)) .+ ("m_2_1" .>> #28)) .+ "m_2_2") .+ (("m_2_3" .& #0x0fffffff) .<< #28)) .+ ("m_3_0" .>> #28)) .+ "m_3_1") .+ (("m_3_2" .& #0x0fffffff) .<< #28)) .+ "m_4_0") .+ (("m_4_1" .& #0x0fffffff) .<< #28)) .+ (("m_5_0" .& #0x0fffffff) .<< #28)) .+ "c1";
    (*788*) "c2" <- "d2" .>> #56;
    (*789*) "d3" <- ((((((((((((((((((((("m_0_5" .>> #28) .+ "m_0_6") .+ (("m_0_7" .& #0x0fffffff) .<< #28)) .+ ("m_1_4" .>> #28)) .+ "m_1_5") .+ (("m_1_6" .& #0x0fffffff) .<< #28)) .+ ("m_2_3" .>> #28)) .+ "m_2_4") .+ (("m_2_5" .& #0x0fffffff) .<< #28)) .+ ("m_3_2" .>> #28)) .+ "m_3_3") .+ (("m_3_4" .& #0x0fffffff) .<< #28)) .+ ("m_4_1" .>> #28)) .+ "m_4_2") .+ (("m_4_3" .& #0x0fffffff) .<< #28)) .+ ("m_5_0" .>> #28)) .+ "m_5_1") .+ (("m_5_2" .& #0x0fffffff) .<< #28)) .+ "m_6_0") .+ (("m_6_1" .& #0x0fffffff) .<< #28)) .+ (("m_7_0" .& #0x0fffffff) .<< #28)) .+ "c2";
    (*797*) "c3" <- "d3" .>> #56;
    (*798*) "d4" <- ((((((((((((((((((((((((((("m_0_7" .>> #28) .+ "m_0_8") .+ (("m_0_9" .& #0x0fffffff) .<< #28)) .+ ("m_1_6" .>> #28)) .+ "m_1_7") .+ (("m_1_8" .& #0x0fffffff) .<< #28)) .+ ("m_2_5" .>> #28)) .+ "m_2_6") .+ (("m_2_7" .& #0x0fffffff) .<< #28)) .+ ("m_3_4" .>> #28)) .+ "m_3_5") .+ (("m_3_6" .& #0x0fffffff) .<< #28)) .+ ("m_4_3" .>> #28)) .+ "m_4_4") .+ (("m_4_5" .& #0x0fffffff) .<< #28)) .+ ("m_5_2" .>> #28)) .+ "m_5_3") .+ (("m_5_4" .& #0x0fffffff) .<< #28)) .+ ("m_6_1" .>> #28)) .+ "m_6_2") .+ (("m_6_3" .& #0x0fffffff) .<< #28)) .+ ("m_7_0" .>> #28)) .+ "m_7_1") .+ (("m_7_2" .& #0x0fffffff) .<< #28)) .+ "m_8_0") .+ (("m_8_1" .& #0x0fffffff) .<< #28)) .+ (("m_9_0" .& #0x0fffffff) .<< #28)) .+ "c3";
    (*808*) "c4" <- "d4" .>> #56;
    (*809*) "d5" <- ((((((((((((((((((((((((((((((((("m_0_9" .>> #28) .+ "m_0_10") .+ (("m_0_11" .& #0x0fffffff) .<< #28)) .+ ("m_1_8" .>> #28)) .+ "m_1_9") .+ (("m_1_10" .& #0x0fffffff) .<< #28)) .+ ("m_2_7" .>> #28)) .+ "m_2_8") .+ (("m_2_9" .& #0x0fffffff) .<< #28)) .+ ("m_3_6" .>> #28)) .+ "m_3_7") .+ (("m_3_8" .& #0x0fffffff) .<< #28)) .+ ("m_4_5" .>> #28)) .+ "m_4_6") .+ (("m_4_7" .& #0x0fffffff) .<< #28)) .+ ("m_5_4" .>> #28)) .+ "m_5_5") .+ (("m_5_6" .& #0x0fffffff) .<< #28)) .+ ("m_6_3" .>> #28)) .+ "m_6_4") .+ (("m_6_5" .& #0x0fffffff) .<< #28)) .+ ("m_7_2" .>> #28)) .+ "m_7_3") .+ (("m_7_4" .& #0x0fffffff) .<< #28)) .+ ("m_8_1" .>> #28)) .+ "m_8_2") .+ (("m_8_3" .& #0x0fffffff) .<< #28)) .+ ("m_9_0" .>> #28)) .+ "m_9_1") .+ (("m_9_2" .& #0x0fffffff) .<< #28)) .+ "m_10_0") .+ (("m_10_1" .& #0x0fffffff) .<< #28)) .+ (("m_11_0" .& #0x0fffffff) .<< #28)) .+ "c4";
    (*821*) "c5" <- "d5" .>> #56;
    (*822*) "d6" <- ((((((((((((((((((((((((((((((((((((((("m_0_11" .>> #28) .+ "m_0_12") .+ (("m_0_13" .& #0x0fffffff) .<< #28)) .+ ("m_1_10" .>> #28)) .+ "m_1_11") .+ (("m_1_12" .& #0x0fffffff) .<< #28)) .+ ("m_2_9" .>> #28)) .+ "m_2_10") .+ (("m_2_11" .& #0x0fffffff) .<< #28)) .+ ("m_3_8" .>> #28)) .+ "m_3_9") .+ (("m_3_10" .& #0x0fffffff) .<< #28)) .+ ("m_4_7" .>> #28)) .+ "m_4_8") .+ (("m_4_9" .& #0x0fffffff) .<< #28)) .+ ("m_5_6" .>> #28)) .+ "m_5_7") .+ (("m_5_8" .& #0x0fffffff) .<< #28)) .+ ("m_6_5" .>> #28)) .+ "m_6_6") .+ (("m_6_7" .& #0x0fffffff) .<< #28)) .+ ("m_7_4" .>> #28)) .+ "m_7_5") .+ (("m_7_6" .& #0x0fffffff) .<< #28)) .+ ("m_8_3" .>> #28)) .+ "m_8_4") .+ (("m_8_5" .& #0x0fffffff) .<< #28)) .+ ("m_9_2" .>> #28)) .+ "m_9_3") .+ (("m_9_4" .& #0x0fffffff) .<< #28)) .+ ("m_10_1" .>> #28)) .+ "m_10_2") .+ (("m_10_3" .& #0x0fffffff) .<< #28)) .+ ("m_11_0" .>> #28)) .+ "m_11_1") .+ (("m_11_2" .& #0x0fffffff) .<< #28)) .+ "m_12_0") .+ (("m_12_1" .& #0x0fffffff) .<< #28)) .+ (("m_13_0" .& #0x0fffffff) .<< #28)) .+ "c5";
    (*836*) "c6" <- "d6" .>> #56;
    (*837*) "d7" <- ((((((((((((((((((((((((((((((((((((((("m_0_13" .>> #28) .+ ("m_1_12" .>> #28)) .+ "m_1_13") .+ ("m_2_11" .>> #28)) .+ "m_2_12") .+ (("m_2_13" .& #0x0fffffff) .<< #28)) .+ ("m_3_10" .>> #28)) .+ "m_3_11") .+ (("m_3_12" .& #0x0fffffff) .<< #28)) .+ ("m_4_9" .>> #28)) .+ "m_4_10") .+ (("m_4_11" .& #0x0fffffff) .<< #28)) .+ ("m_5_8" .>> #28)) .+ "m_5_9") .+ (("m_5_10" .& #0x0fffffff) .<< #28)) .+ ("m_6_7" .>> #28)) .+ "m_6_8") .+ (("m_6_9" .& #0x0fffffff) .<< #28)) .+ ("m_7_6" .>> #28)) .+ "m_7_7") .+ (("m_7_8" .& #0x0fffffff) .<< #28)) .+ ("m_8_5" .>> #28)) .+ "m_8_6") .+ (("m_8_7" .& #0x0fffffff) .<< #28)) .+ ("m_9_4" .>> #28)) .+ "m_9_5") .+ (("m_9_6" .& #0x0fffffff) .<< #28)) .+ ("m_10_3" .>> #28)) .+ "m_10_4") .+ (("m_10_5" .& #0x0fffffff) .<< #28)) .+ ("m_11_2" .>> #28)) .+ "m_11_3") .+ (("m_11_4" .& #0x0fffffff) .<< #28)) .+ ("m_12_1" .>> #28)) .+ "m_12_2") .+ (("m_12_3" .& #0x0fffffff) .<< #28)) .+ ("m_13_0" .>> #28)) .+ "m_13_1") .+ (("m_13_2" .& #0x0fffffff) .<< #28)) .+ "c6";
    (*852*) "c7" <- "d7" .>> #56;
    (*853*) "d8" <- ((((((((((((((((((((((((((((((((("m_2_13" .>> #28) .+ ("m_3_12" .>> #28)) .+ "m_3_13") .+ ("m_4_11" .>> #28)) .+ "m_4_12") .+ (("m_4_13" .& #0x0fffffff) .<< #28)) .+ ("m_5_10" .>> #28)) .+ "m_5_11") .+ (("m_5_12" .& #0x0fffffff) .<< #28)) .+ ("m_6_9" .>> #28)) .+ "m_6_10") .+ (("m_6_11" .& #0x0fffffff) .<< #28)) .+ ("m_7_8" .>> #28)) .+ "m_7_9") .+ (("m_7_10" .& #0x0fffffff) .<< #28)) .+ ("m_8_7" .>> #28)) .+ "m_8_8") .+ (("m_8_9" .& #0x0fffffff) .<< #28)) .+ ("m_9_6" .>> #28)) .+ "m_9_7") .+ (("m_9_8" .& #0x0fffffff) .<< #28)) .+ ("m_10_5" .>> #28)) .+ "m_10_6") .+ (("m_10_7" .& #0x0fffffff) .<< #28)) .+ ("m_11_4" .>> #28)) .+ "m_11_5") .+ (("m_11_6" .& #0x0fffffff) .<< #28)) .+ ("m_12_3" .>> #28)) .+ "m_12_4") .+ (("m_12_5" .& #0x0fffffff) .<< #28)) .+ ("m_13_2" .>> #28)) .+ "m_13_3") .+ (("m_13_4" .& #0x0fffffff) .<< #28)) .+ "c7";
    (*866*) "c8" <- "d8" .>> #56;
    (*867*) "d9" <- ((((((((((((((((((((((((((("m_4_13" .>> #28) .+ ("m_5_12" .>> #28)) .+ "m_5_13") .+ ("m_6_11" .>> #28)) .+ "m_6_12") .+ (("m_6_13" .& #0x0fffffff) .<< #28)) .+ ("m_7_10" .>> #28)) .+ "m_7_11") .+ (("m_7_12" .& #0x0fffffff) .<< #28)) .+ ("m_8_9" .>> #28)) .+ "m_8_10") .+ (("m_8_11" .& #0x0fffffff) .<< #28)) .+ ("m_9_8" .>> #28)) .+ "m_9_9") .+ (("m_9_10" .& #0x0fffffff) .<< #28)) .+ ("m_10_7" .>> #28)) .+ "m_10_8") .+ (("m_10_9" .& #0x0fffffff) .<< #28)) .+ ("m_11_6" .>> #28)) .+ "m_11_7") .+ (("m_11_8" .& #0x0fffffff) .<< #28)) .+ ("m_12_5" .>> #28)) .+ "m_12_6") .+ (("m_12_7" .& #0x0fffffff) .<< #28)) .+ ("m_13_4" .>> #28)) .+ "m_13_5") .+ (("m_13_6" .& #0x0fffffff) .<< #28)) .+ "c8";
    (*878*) "c9" <- "d9" .>> #56;
    (*879*) "d10" <- ((((((((((((((((((((("m_6_13" .>> #28) .+ ("m_7_12" .>> #28)) .+ "m_7_13") .+ ("m_8_11" .>> #28)) .+ "m_8_12") .+ (("m_8_13" .& #0x0fffffff) .<< #28)) .+ ("m_9_10" .>> #28)) .+ "m_9_11") .+ (("m_9_12" .& #0x0fffffff) .<< #28)) .+ ("m_10_9" .>> #28)) .+ "m_10_10") .+ (("m_10_11" .& #0x0fffffff) .<< #28)) .+ ("m_11_8" .>> #28)) .+ "m_11_9") .+ (("m_11_10" .& #0x0fffffff) .<< #28)) .+ ("m_12_7" .>> #28)) .+ "m_12_8") .+ (("m_12_9" .& #0x0fffffff) .<< #28)) .+ ("m_13_6" .>> #28)) .+ "m_13_7") .+ (("m_13_8" .& #0x0fffffff) .<< #28)) .+ "c9";
    (*888*) "c10" <- "d10" .>> #56;
    (*889*) "d11" <- ((((((((((((((("m_8_13" .>> #28) .+ ("m_9_12" .>> #28)) .+ "m_9_13") .+ ("m_10_11" .>> #28)) .+ "m_10_12") .+ (("m_10_13" .& #0x0fffffff) .<< #28)) .+ ("m_11_10" .>> #28)) .+ "m_11_11") .+ (("m_11_12" .& #0x0fffffff) .<< #28)) .+ ("m_12_9" .>> #28)) .+ "m_12_10") .+ (("m_12_11" .& #0x0fffffff) .<< #28)) .+ ("m_13_8" .>> #28)) .+ "m_13_9") .+ (("m_13_10" .& #0x0fffffff) .<< #28)) .+ "c10";
    (*896*) "c11" <- "d11" .>> #56;
    (*897*) "d12" <- ((((((((("m_10_13" .>> #28) .+ ("m_11_12" .>> #28)) .+ "m_11_13") .+ ("m_12_11" .>> #28)) .+ "m_12_12") .+ (("m_12_13" .& #0x0fffffff) .<< #28)) .+ ("m_13_10" .>> #28)) .+ "m_13_11") .+ (("m_13_12" .& #0x0fffffff) .<< #28)) .+ "c11";
    (*902*) "c12" <- "d12" .>> #56;
    (*903*) "d13" <- ((("m_12_13" .>> #28) .+ ("m_13_12" .>> #28)) .+ "m_13_13") .+ "c12";
    (*910*) "l0_0" <- "d0" .& #0x00ffffffffffffff;
    (*911*) "l1_0" <- "d1" .& #0x00ffffffffffffff;
    (*912*) "l2_0" <- "d2" .& #0x00ffffffffffffff;
    (*913*) "l3_0" <- "d3" .& #0x00ffffffffffffff;
    (*914*) "l4_0" <- "d4" .& #0x00ffffffffffffff;
    (*915*) "l5_0" <- "d5" .& #0x00ffffffffffffff;
    (*916*) "l6_0" <- "d6" .& #0x00007fffffffffff;
    (*919*) "h0_0" <- (("d6" .& #0x00ffffffffffffff) .>> #47) .| (("d7" .& #0x000000000007ffff) .<< #9);
    (*921*) "h1_0" <- ("d7" .& #0x00007ffffff80000) .>> #19;
    (*922*) "h2_0" <- (("d7" .& #0x00ffffffffffffff) .>> #47) .| (("d8" .& #0x000000000007ffff) .<< #9);
    (*924*) "h3_0" <- ("d8" .& #0x00007ffffff80000) .>> #19;
    (*925*) "h4_0" <- (("d8" .& #0x00ffffffffffffff) .>> #47) .| (("d9" .& #0x000000000007ffff) .<< #9);
    (*927*) "h5_0" <- ("d9" .& #0x00007ffffff80000) .>> #19;
    (*928*) "h6_0" <- (("d9" .& #0x00ffffffffffffff) .>> #47) .| (("d10" .& #0x000000000007ffff) .<< #9);
    (*930*) "h7_0" <- ("d10" .& #0x00007ffffff80000) .>> #19;
    (*931*) "h8_0" <- (("d10" .& #0x00ffffffffffffff) .>> #47) .| (("d11" .& #0x000000000007ffff) .<< #9);
    (*933*) "h9_0" <- ("d11" .& #0x00007ffffff80000) .>> #19;
    (*934*) "h10_0" <- (("d11" .& #0x00ffffffffffffff) .>> #47) .| (("d12" .& #0x000000000007ffff) .<< #9);
    (*936*) "h11_0" <- ("d12" .& #0x00007ffffff80000) .>> #19;
    (*937*) "h12_0" <- (("d12" .& #0x00ffffffffffffff) .>> #47) .| (("d13" .& #0x000000000007ffff) .<< #9);
    (*939*) "h13_0" <- "d13" .>> #19;
    (*942*) "hc0_0" <- "h0_0" .* (EInt C_VAL);
    (*943*) "hc1_0" <- "h1_0" .* (EInt C_VAL);
    (*944*) "hc2_0" <- "h2_0" .* (EInt C_VAL);
    (*945*) "hc3_0" <- "h3_0" .* (EInt C_VAL);
    (*946*) "hc4_0" <- "h4_0" .* (EInt C_VAL);
    (*947*) "hc5_0" <- "h5_0" .* (EInt C_VAL);
    (*948*) "hc6_0" <- "h6_0" .* (EInt C_VAL);
    (*949*) "hc7_0" <- "h7_0" .* (EInt C_VAL);
    (*950*) "hc8_0" <- "h8_0" .* (EInt C_VAL);
    (*951*) "hc9_0" <- "h9_0" .* (EInt C_VAL);
    (*952*) "hc10_0" <- "h10_0" .* (EInt C_VAL);
    (*953*) "hc11_0" <- "h11_0" .* (EInt C_VAL);
    (*954*) "hc12_0" <- "h12_0" .* (EInt C_VAL);
    (*955*) "hc13_0" <- "h13_0" .* (EInt C_VAL);
    (*957*) "hm0_0" <- "hc0_0" .+ (("hc1_0" .& #0x0fffffff) .<< #28);
    (*958*) "hmk0_0" <- "hm0_0" .>> #56;
    (*959*) "hm1_0" <- ((("hc1_0" .>> #28) .+ "hc2_0") .+ (("hc3_0" .& #0x0fffffff) .<< #28)) .+ "hmk0_0";
    (*961*) "hmk1_0" <- "hm1_0" .>> #56;
    (*962*) "hm2_0" <- ((("hc3_0" .>> #28) .+ "hc4_0") .+ (("hc5_0" .& #0x0fffffff) .<< #28)) .+ "hmk1_0";
    (*964*) "hmk2_0" <- "hm2_0" .>> #56;
    (*965*) "hm3_0" <- ((("hc5_0" .>> #28) .+ "hc6_0") .+ (("hc7_0" .& #0x0fffffff) .<< #28)) .+ "hmk2_0";
    (*967*) "hmk3_0" <- "hm3_0" .>> #56;
    (*968*) "hm4_0" <- ((("hc7_0" .>> #28) .+ "hc8_0") .+ (("hc9_0" .& #0x0fffffff) .<< #28)) .+ "hmk3_0";
    (*970*) "hmk4_0" <- "hm4_0" .>> #56;
    (*971*) "hm5_0" <- ((("hc9_0" .>> #28) .+ "hc10_0") .+ (("hc11_0" .& #0x0fffffff) .<< #28)) .+ "hmk4_0";
    (*973*) "hmk5_0" <- "hm5_0" .>> #56;
    (*974*) "hm6_0" <- ((("hc11_0" .>> #28) .+ "hc12_0") .+ ("hc13_0" .<< #28)) .+ "hmk5_0";
    (*978*) "kin_0" <- "hm6_0" .>> #47;
    (*979*) "s0_0" <- ("l0_0" .+ ("hm0_0" .& #0x00ffffffffffffff)) .+ ("kin_0" .* (EInt C_VAL));
    (*980*) "k0_0" <- "s0_0" .>> #56;
    (*981*) "s1_0" <- ("l1_0" .+ ("hm1_0" .& #0x00ffffffffffffff)) .+ "k0_0";
    (*982*) "k1_0" <- "s1_0" .>> #56;
    (*983*) "s2_0" <- ("l2_0" .+ ("hm2_0" .& #0x00ffffffffffffff)) .+ "k1_0";
    (*984*) "k2_0" <- "s2_0" .>> #56;
    (*985*) "s3_0" <- ("l3_0" .+ ("hm3_0" .& #0x00ffffffffffffff)) .+ "k2_0";
    (*986*) "k3_0" <- "s3_0" .>> #56;
    (*987*) "s4_0" <- ("l4_0" .+ ("hm4_0" .& #0x00ffffffffffffff)) .+ "k3_0";
    (*988*) "k4_0" <- "s4_0" .>> #56;
    (*989*) "s5_0" <- ("l5_0" .+ ("hm5_0" .& #0x00ffffffffffffff)) .+ "k4_0";
    (*990*) "k5_0" <- "s5_0" .>> #56;
    (*991*) "s6_0" <- ("l6_0" .+ ("hm6_0" .& #0x00007fffffffffff)) .+ "k5_0";
    (*993*) SSet "self" #0 ("s0_0" .& #0x00ffffffffffffff);
    (*994*) SSet "self" #1 ("s1_0" .& #0x00ffffffffffffff);
    (*995*) SSet "self" #2 ("s2_0" .& #0x00ffffffffffffff);
    (*996*) SSet "self" #3 ("s3_0" .& #0x00ffffffffffffff);
    (*997*) SSet "self" #4 ("s4_0" .& #0x00ffffffffffffff);
    (*998*) SSet "self" #5 ("s5_0" .& #0x00ffffffffffffff);
    (*999*) SSet "self" #6 ("s6_0") ]
    [].

(* src/field/mod_e383_187.rs:1004-1006  MulAssign<F>  F::mul_assign(F) *)
Definition f_mul_assign_val : func := mkfunc ["self"; "rhs"] [
    (*1005*) SCall [] "F::mul_assign(&F)" [AMut "self"; AVal "rhs"] ]
    [].

(* src/field/mod_e383_187.rs:1012-1014  Mul<&F>  i32::mul(&F) *)
Definition f_i32_mul_ref : func := mkfunc ["self"; "a"] [
    (*1013*) SCall ["%1"] "F::small_mul" [AVal "a"; AVal "self"] ]
    [EVar "%1"].

(* src/field/mod_e383_187.rs:1020-1022  Mul<&F>  i16::mul(&F) *)
Definition f_i16_mul_ref : func := mkfunc ["self"; "a"] [
    (*1021*) SCall ["%1"] "F::small_mul" [AVal "a"; AVal (ECast I32 "self")] ]
    [EVar "%1"].

(* src/field/mod_e383_187.rs:1028-1030  Mul<&F>  i8::mul(&F) *)
Definition f_i8_mul_ref : func := mkfunc ["self"; "a"] [
    (*1029*) SCall ["%1"] "F::small_mul" [AVal "a"; AVal (ECast I32 "self")] ]
    [EVar "%1"].

(* src/field/mod_e383_187.rs:1036-1038  Mul<i32>  (&F)::mul(i32) *)
Definition f_ref_mul_i32 : func := mkfunc ["self"; "a"] [
    (*1037*) SCall ["%1"] "F::small_mul" [AVal "self"; AVal "a"] ]
    [EVar "%1"].

(* src/field/mod_e383_187.rs:1044-1046  Mul<i16>  (&F)::mul(i16) *)
Definition f_ref_mul_i16 : func := mkfunc ["self"; "a"] [
    (*1045*) SCall ["%1"] "F::small_mul" [AVal "self"; AVal (ECast I32 "a")] ]
    [EVar "%1"].

(* src/field/mod_e383_187.rs:1052-1054  Mul<i8>  (&F)::mul(i8) *)
Definition f_ref_mul_i8 : func := mkfunc ["self"; "a"] [
    (*1053*) SCall ["%1"] "F::small_mul" [AVal "self"; AVal (ECast I32 "a")] ]
    [EVar "%1"].

(* src/field/mod_e383_187.rs:1060-1062  Mul<i32>  F::mul(i32) *)
Definition f_mul_i32 : func := mkfunc ["self"; "a"] [
    (*1061*) SCall ["%1"] "(&F)::mul(i32)" [AVal "self"; AVal "a"] ]
    [EVar "%1"].

(* src/field/mod_e383_187.rs:1068-1070  Mul<i16>  F::mul(i16) *)
Definition f_mul_i16 : func := mkfunc ["self"; "a"] [
    (*1069*) SCall ["%1"] "(&F)::mul(i16)" [AVal "self"; AVal "a"] ]
    [EVar "%1"].

(* src/field/mod_e383_187.rs:1076-1078  Mul<i8>  F::mul(i8) *)
Definition f_mul_i8 : func := mkfunc ["self"; "a"] [
    (*1077*) SCall ["%1"] "(&F)::mul(i8)" [AVal "self"; AVal "a"] ]
    [EVar "%1"].

(* src/field/mod_e383_187.rs:1084-1088  Mul<&F>  (&F)::mul(&F) *)
Definition f_ref_mul_ref : func := mkfunc ["self"; "a"] [
    (*1085*) "out" <- "self";
    (*1086*) SCall [] "F::mul_assign(&F)" [AMut "out"; AVal "a"] ]
    [EVar "out"].

(* src/field/mod_e383_187.rs:1094-1096  Mul<F>  F::mul(F) *)
Definition f_mul_val : func := mkfunc ["self"; "a"] [
    (*1095*) SCall ["%1"] "(&F)::mul(&F)" [AVal "self"; AVal "a"] ]
    [EVar "%1"].

(* src/field/mod_e383_187.rs:1100-1108  Rand  F::rand *)
Definition f_rand : func := mkfunc ["rng"] [
    (*1101*) "out" <- ERep #0 7;
    (*1103*) SFor "i" #0 #7 [
      (*1104*) SGenRange "%1" "rng" #0 ((ELit MODULUS).["i"]);
      (*1104*) SSet "out" "i" ("%1") ] ]
    [EVar "out"].

(* src/field/mod_e383_187.rs:1112-1161  Pack  F::unpack *)
Definition f_unpack : func := mkfunc ["self"; "bytes"] [
    (*1113*) SSet "self" #0 ((((((((ECast I64 ("bytes".[#0])) .& #0x00000000000000ff) .| (((ECast I64 ("bytes".[#1])) .<< #8) .& #0x000000000000ff00)) .| (((ECast I64 ("bytes".[#2])) .<< #16) .& #0x0000000000ff0000)) .| (((ECast I64 ("bytes".[#3])) .<< #24) .& #0x00000000ff000000)) .| (((ECast I64 ("bytes".[#4])) .<< #32) .& #0x000000ff00000000)) .| (((ECast I64 ("bytes".[#5])) .<< #40) .& #0x0000ff0000000000)) .| (((ECast I64 ("bytes".[#6])) .<< #48) .& #0x00ff000000000000));
    (*1120*) SSet "self" #1 ((((((((ECast I64 ("bytes".[#7])) .& #0x00000000000000ff) .| (((ECast I64 ("bytes".[#8])) .<< #8) .& #0x000000000000ff00)) .| (((ECast I64 ("bytes".[#9])) .<< #16) .& #0x0000000000ff0000)) .| (((ECast I64 ("bytes".[#10])) .<< #24) .& #0x00000000ff000000)) .| (((ECast I64 ("bytes".[#11])) .<< #32) .& #0x000000ff00000000)) .| (((ECast I64 ("bytes".[#12])) .<< #40) .& #0x0000ff0000000000)) .| (((ECast I64 ("bytes".[#13])) .<< #48) .& #0x00ff000000000000));
    (*1127*) SSet "self" #2 ((((((((ECast I64 ("bytes".[#14])) .& #0x00000000000000ff) .| (((ECast I64 ("bytes".[#15])) .<< #8) .& #0x000000000000ff00)) .| (((ECast I64 ("bytes".[#16])) .<< #16) .& #0x0000000000ff0000)) .| (((ECast I64 ("bytes".[#17])) .<< #24) .& #0x00000000ff000000)) .| (((ECast I64 ("bytes".[#18])) .<< #32) .& #0x000000ff00000000)) .| (((ECast I64 ("bytes".[#19])) .<< #40) .& #0x0000ff0000000000)) .| (((ECast I64 ("bytes".[#20])) .<< #48) .& #0x00ff000000000000));
    (*1134*) SSet "self" #3 ((((((((ECast I64 ("bytes".[#21])) .& #0x00000000000000ff) .| (((ECast I64 ("bytes".[#22])) .<< #8) .& #0x000000000000ff00)) .| (((ECast I64 ("bytes".[#23])) .<< #16) .& #0x0000000000ff0000)) .| (((ECast I64 ("bytes".[#24])) .<< #24) .& #0x00000000ff000000)) .| (((ECast I64 ("bytes".[#25])) .<< #32) .& #0x000000ff00000000)) .| (((ECast I64 ("bytes".[#26])) .<< #40) .& #0x0000ff0000000000)) .| (((ECast I64 ("bytes".[#27])) .<< #48) .& #0x00ff000000000000));
    (*1141*) SSet "self" #4 ((((((((ECast I64 ("bytes".[#28])) .& #0x00000000000000ff) .| (((ECast I64 ("bytes".[#29])) .<< #8) .& #0x000000000000ff00)) .| (((ECast I64 ("bytes".[#30])) .<< #16) .& #0x0000000000ff0000)) .| (((ECast I64 ("bytes".[#31])) .<< #24) .& #0x00000000ff000000)) .| (((ECast I64 ("bytes".[#32])) .<< #32) .& #0x000000ff00000000)) .| (((ECast I64 ("bytes".[#33])) .<< #40) .& #0x0000ff0000000000)) .| (((ECast I64 ("bytes".[#34])) .<< #48) .& #0x00ff000000000000));
    (*1148*) SSet "self" #5 ((((((((ECast I64 ("bytes".[#35])) .& #0x00000000000000ff) .| (((ECast I64 ("bytes".[#36])) .<< #8) .& #0x000000000000ff00)) .| (((ECast I64 ("bytes".[#37])) .<< #16) .& #0x0000000000ff0000)) .| (((ECast I64 ("bytes".[#38])) .<< #24) .& #0x00000000ff000000)) .| (((ECast I64 ("bytes".[#39])) .<< #32) .& #0x000000ff00000000)) .| (((ECast I64 ("bytes".[#40])) .<< #40) .& #0x0000ff0000000000)) .| (((ECast I64 ("bytes".[#41])) .<< #48) .& #0x00ff000000000000));
    (*1155*) SSet "self" #6 (((((((ECast I64 ("bytes".[#42])) .& #0x00000000000000ff) .| (((ECast I64 ("bytes".[#43])) .<< #8) .& #0x000000000000ff00)) .| (((ECast I64 ("bytes".[#44])) .<< #16) .& #0x0000000000ff0000)) .| (((ECast I64 ("bytes".[#45])) .<< #24) .& #0x00000000ff000000)) .| (((ECast I64 ("bytes".[#46])) .<< #32) .& #0x000000ff00000000)) .| (((ECast I64 ("bytes".[#47])) .<< #40) .& #0x0000ff0000000000)) ]
    [].

(* src/field/mod_e383_187.rs:1163-1167  Pack  F::unpacked *)
Definition f_unpacked : func := mkfunc ["bytes"] [
    (*1164*) "out" <- ELit ZERO;
    (*1165*) SCall [] "F::unpack" [AMut "out"; AVal "bytes"] ]
    [EVar "out"].

(* src/field/mod_e383_187.rs:1169-1172  Pack  F::pack *)
Definition f_pack : func := mkfunc ["self"; "bytes"] [
    (*1170*) SCall [] "F::normalize" [AMut "self"];
    (*1171*) SCall [] "F::pack_normalized" [AVal "self"; AMut "bytes"] ]
    [].

(* src/field/mod_e383_187.rs:1174-1223  Pack  F::pack_normalized *)
Definition f_pack_normalized : func := mkfunc ["self"; "bytes"] [
    (*1175*) SSet "bytes" #0 (ECast U8 (("self".[#0]) .& #255));
    (*1176*) SSet "bytes" #1 (ECast U8 ((("self".[#0]) .>> #8) .& #255));
    (*1177*) SSet "bytes" #2 (ECast U8 ((("self".[#0]) .>> #16) .& #255));
    (*1178*) SSet "bytes" #3 (ECast U8 ((("self".[#0]) .>> #24) .& #255));
    (*1179*) SSet "bytes" #4 (ECast U8 ((("self".[#0]) .>> #32) .& #255));
    (*1180*) SSet "bytes" #5 (ECast U8 ((("self".[#0]) .>> #40) .& #255));
    (*1181*) SSet "bytes" #6 (ECast U8 ((("self".[#0]) .>> #48) .& #255));
    (*1182*) SSet "bytes" #7 (ECast U8 (("self".[#1]) .& #255));
    (*1183*) SSet "bytes" #8 (ECast U8 ((("self".[#1]) .>> #8) .& #255));
    (*1184*) SSet "bytes" #9 (ECast U8 ((("self".[#1]) .>> #16) .& #255));
    (*1185*) SSet "bytes" #10 (ECast U8 ((("self".[#1]) .>> #24) .& #255));
    (*1186*) SSet "bytes" #11 (ECast U8 ((("self".[#1]) .>> #32) .& #255));
    (*1187*) SSet "bytes" #12 (ECast U8 ((("self".[#1]) .>> #40) .& #255));
    (*1188*) SSet "bytes" #13 (ECast U8 ((("self".[#1]) .>> #48) .& #255));
    (*1189*) SSet "bytes" #14 (ECast U8 (("self".[#2]) .& #255));
    (*1190*) SSet "bytes" #15 (ECast U8 ((("self".[#2]) .>> #8) .& #255));
    (*1191*) SSet "bytes" #16 (ECast U8 ((("self".[#2]) .>> #16) .& #255));
    (*1192*) SSet "bytes" #17 (ECast U8 ((("self".[#2]) .>> #24) .& #255));
    (*1193*) SSet "bytes" #18 (ECast U8 ((("self".[#2]) .>> #32) .& #255));
    (*1194*) SSet "bytes" #19 (ECast U8 ((("self".[#2]) .>> #40) .& #255));
    (*1195*) SSet "bytes" #20 (ECast U8 ((("self".[#2]) .>> #48) .& #255));
    (*1196*) SSet "bytes" #21 (ECast U8 (("self".[#3]) .& #255));
    (*1197*) SSet "bytes" #22 (ECast U8 ((("self".[#3]) .>> #8) .& #255));
    (*1198*) SSet "bytes" #23 (ECast U8 ((("self".[#3]) .>> #16) .& #255));
    (*1199*) SSet "bytes" #24 (ECast U8 ((("self".[#3]) .>> #24) .& #255));
    (*1200*) SSet "bytes" #25 (ECast U8 ((("self".[#3]) .>> #32) .& #255));
    (*1201*) SSet "bytes" #26 (ECast U8 ((("self".[#3]) .>> #40) .& #255));
    (*1202*) SSet "bytes" #27 (ECast U8 ((("self".[#3]) .>> #48) .& #255));
    (*1203*) SSet "bytes" #28 (ECast U8 (("self".[#4]) .& #255));
    (*1204*) SSet "bytes" #29 (ECast U8 ((("self".[#4]) .>> #8) .& #255));
    (*1205*) SSet "bytes" #30 (ECast U8 ((("self".[#4]) .>> #16) .& #255));
    (*1206*) SSet "bytes" #31 (ECast U8 ((("self".[#4]) .>> #24) .& #255));
    (*1207*) SSet "bytes" #32 (ECast U8 ((("self".[#4]) .>> #32) .& #255));
    (*1208*) SSet "bytes" #33 (ECast U8 ((("self".[#4]) .>> #40) .& #255));
    (*1209*) SSet "bytes" #34 (ECast U8 ((("self".[#4]) .>> #48) .& #255));
    (*1210*) SSet "bytes" #35 (ECast U8 (("self".[#5]) .& #255));
    (*1211*) SSet "bytes" #36 (ECast U8 ((("self".[#5]) .>> #8) .& #255));
    (*1212*) SSet "bytes" #37 (ECast U8 ((("self".[#5]) .>> #16) .& #255));
    (*1213*) SSet "bytes" #38 (ECast U8 ((("self".[#5]) .>> #24) .& #255));
    (*1214*) SSet "bytes" #39 (ECast U8 ((("self".[#5]) .>> #32) .& #255));
    (*1215*) SSet "bytes" #40 (ECast U8 ((("self".[#5]) .>> #40) .& #255));
    (*1216*) SSet "bytes" #41 (ECast U8 ((("self".[#5]) .>> #48) .& #255));
    (*1217*) SSet "bytes" #42 (ECast U8 (("self".[#6]) .& #255));
    (*1218*) SSet "bytes" #43 (ECast U8 ((("self".[#6]) .>> #8) .& #255));
    (*1219*) SSet "bytes" #44 (ECast U8 ((("self".[#6]) .>> #16) .& #255));
    (*1220*) SSet "bytes" #45 (ECast U8 ((("self".[#6]) .>> #24) .& #255));
    (*1221*) SSet "bytes" #46 (ECast U8 ((("self".[#6]) .>> #32) .& #255));
    (*1222*) SSet "bytes" #47 (ECast U8 ((("self".[#6]) .>> #40) .& #255)) ]
    [].

(* src/field/mod_e383_187.rs:1225-1227  Pack  F::nbytes *)
Definition f_nbytes : func := mkfunc [] [
 ]
    [#48].

(* src/field/mod_e383_187.rs:1231-1235  Normalize  F::normalize *)
Definition f_normalize : func := mkfunc ["self"] [
    (*1232*) SCall ["plusc"] "(&F)::add(i32)" [AVal "self"; AVal (ECast I32 (EInt C_VAL))];
    (*1233*) SCall ["offset"] "(&F)::mul(i32)" [AVal (ELit MODULUS); AVal (ECast I32 (carry_out "plusc"))];
    (*1234*) SCall [] "F::sub_assign(&F)" [AMut "self"; AVal "offset"] ]
    [].

(* src/field/mod_e383_187.rs:1239-1253  NormalizeEq  F::normalize_self_eq *)
Definition f_normalize_self_eq : func := mkfunc ["self"; "other"] [
    (*1240*) "are_equal" <- #1;
    (*1242*) SCall [] "F::normalize" [AMut "self"];
    (*1244*) "are_equal" <- "are_equal" .& (EEq ("self".[#0]) ("other".[#0]));
    (*1245*) "are_equal" <- "are_equal" .& (EEq ("self".[#1]) ("other".[#1]));
    (*1246*) "are_equal" <- "are_equal" .& (EEq ("self".[#2]) ("other".[#2]));
    (*1247*) "are_equal" <- "are_equal" .& (EEq ("self".[#3]) ("other".[#3]));
    (*1248*) "are_equal" <- "are_equal" .& (EEq ("self".[#4]) ("other".[#4]));
    (*1249*) "are_equal" <- "are_equal" .& (EEq ("self".[#5]) ("other".[#5]));
    (*1250*) "are_equal" <- "are_equal" .& (EEq ("self".[#6]) ("other".[#6])) ]
    [EVar "are_equal"].

(* src/field/mod_e383_187.rs:1255-1258  NormalizeEq  F::normalize_eq *)
Definition f_normalize_eq : func := mkfunc ["self"; "other"] [
    (*1256*) SCall [] "F::normalize" [AMut "other"];
    (*1257*) SCall ["%1"] "F::normalize_self_eq" [AMut "self"; AVal "other"] ]
    [EVar "%1"].

(* src/field/mod_e383_187.rs:1262-1279  PrimeFieldMask  Mask::fill *)
Definition f_Mask_fill : func := mkfunc ["self"; "bit"] [
    (*1263*) "mask" <- ECast I64 "bit";
    (*1265*) "mask" <- "mask" .| ("mask" .<< #1);
    (*1266*) "mask" <- "mask" .| ("mask" .<< #2);
    (*1267*) "mask" <- "mask" .| ("mask" .<< #4);
    (*1268*) "mask" <- "mask" .| ("mask" .<< #8);
    (*1269*) "mask" <- "mask" .| ("mask" .<< #16);
    (*1270*) "mask" <- "mask" .| ("mask" .<< #32);
    (*1272*) SSet "self" #0 ("mask");
    (*1273*) SSet "self" #1 ("mask");
    (*1274*) SSet "self" #2 ("mask");
    (*1275*) SSet "self" #3 ("mask");
    (*1276*) SSet "self" #4 ("mask");
    (*1277*) SSet "self" #5 ("mask");
    (*1278*) SSet "self" #6 ("mask") ]
    [].

(* src/field/mod_e383_187.rs:1281-1292  PrimeFieldMask  Mask::filled *)
Definition f_Mask_filled : func := mkfunc ["bit"] [
    (*1282*) "mask" <- ECast I64 "bit";
    (*1284*) "mask" <- "mask" .| ("mask" .<< #1);
    (*1285*) "mask" <- "mask" .| ("mask" .<< #2);
    (*1286*) "mask" <- "mask" .| ("mask" .<< #4);
    (*1287*) "mask" <- "mask" .| ("mask" .<< #8);
    (*1288*) "mask" <- "mask" .| ("mask" .<< #16);
    (*1289*) "mask" <- "mask" .| ("mask" .<< #32) ]
    [ERep "mask" 7].

(* src/field/mod_e383_187.rs:1296-1313  PrimeField  F::fill *)
Definition f_fill : func := mkfunc ["self"; "bit"] [
    (*1297*) "mask" <- ECast I64 "bit";
    (*1299*) "mask" <- "mask" .| ("mask" .<< #1);
    (*1300*) "mask" <- "mask" .| ("mask" .<< #2);
    (*1301*) "mask" <- "mask" .| ("mask" .<< #4);
    (*1302*) "mask" <- "mask" .| ("mask" .<< #8);
    (*1303*) "mask" <- "mask" .| ("mask" .<< #16);
    (*1304*) "mask" <- "mask" .| ("mask" .<< #32);
    (*1306*) SSet "self" #0 ("mask");
    (*1307*) SSet "self" #1 ("mask");
    (*1308*) SSet "self" #2 ("mask");
    (*1309*) SSet "self" #3 ("mask");
    (*1310*) SSet "self" #4 ("mask");
    (*1311*) SSet "self" #5 ("mask");
    (*1312*) SSet "self" #6 ("mask") ]
    [].

(* src/field/mod_e383_187.rs:1315-1326  PrimeField  F::filled *)
Definition f_filled : func := mkfunc ["bit"] [
    (*1316*) "mask" <- ECast I64 "bit";
    (*1318*) "mask" <- "mask" .| ("mask" .<< #1);
    (*1319*) "mask" <- "mask" .| ("mask" .<< #2);
    (*1320*) "mask" <- "mask" .| ("mask" .<< #4);
    (*1321*) "mask" <- "mask" .| ("mask" .<< #8);
    (*1322*) "mask" <- "mask" .| ("mask" .<< #16);
    (*1323*) "mask" <- "mask" .| ("mask" .<< #32) ]
    [ERep "mask" 7].

(* src/field/mod_e383_187.rs:1328-1328  PrimeField  F::nbits *)
Definition f_nbits : func := mkfunc [] [
 ]
    [#383].

(* src/field/mod_e383_187.rs:1330-1335  PrimeField  F::bit_normalized *)
Definition f_bit_normalized : func := mkfunc ["self"; "idx"] [
    (*1331*) "byte" <- EUDiv "idx" #56;
    (*1332*) "bit" <- EURem "idx" #56 ]
    [EEq ((("self".["byte"]) .>> "bit") .& #0x1) #0x1].

(* src/field/mod_e383_187.rs:1337-1340  PrimeField  F::bit *)
Definition f_bit : func := mkfunc ["self"; "idx"] [
    (*1338*) SCall [] "F::normalize" [AMut "self"];
    (*1339*) SCall ["%1"] "F::bit_normalized" [AVal "self"; AVal "idx"] ]
    [EVar "%1"].

(* src/field/mod_e383_187.rs:1342-1345  PrimeField  F::normalize_bitand *)
Definition f_normalize_bitand : func := mkfunc ["self"; "rhs"] [
    (*1343*) SCall [] "F::normalize" [AMut "rhs"];
    (*1344*) SCall [] "F::normalize_self_bitand" [AMut "self"; AVal "rhs"] ]
    [].

(* src/field/mod_e383_187.rs:1347-1350  PrimeField  F::normalize_self_bitand *)
Definition f_normalize_self_bitand : func := mkfunc ["self"; "rhs"] [
    (*1348*) SCall [] "F::normalize" [AMut "self"];
    (*1349*) SCall [] "F::normalized_bitand" [AMut "self"; AVal "rhs"] ]
    [].

(* src/field/mod_e383_187.rs:1352-1360  PrimeField  F::normalized_bitand *)
Definition f_normalized_bitand : func := mkfunc ["self"; "rhs"] [
    (*1353*) SSet "self" #0 (("self".[#0]) .& ("rhs".[#0]));
    (*1354*) SSet "self" #1 (("self".[#1]) .& ("rhs".[#1]));
    (*1355*) SSet "self" #2 (("self".[#2]) .& ("rhs".[#2]));
    (*1356*) SSet "self" #3 (("self".[#3]) .& ("rhs".[#3]));
    (*1357*) SSet "self" #4 (("self".[#4]) .& ("rhs".[#4]));
    (*1358*) SSet "self" #5 (("self".[#5]) .& ("rhs".[#5]));
    (*1359*) SSet "self" #6 (("self".[#6]) .& ("rhs".[#6])) ]
    [].

(* src/field/mod_e383_187.rs:1362-1365  PrimeField  F::normalize_bitor *)
Definition f_normalize_bitor : func := mkfunc ["self"; "rhs"] [
    (*1363*) SCall [] "F::normalize" [AMut "rhs"];
    (*1364*) SCall [] "F::normalize_self_bitor" [AMut "self"; AVal "rhs"] ]
    [].

(* src/field/mod_e383_187.rs:1367-1370  PrimeField  F::normalize_self_bitor *)
Definition f_normalize_self_bitor : func := mkfunc ["self"; "rhs"] [
    (*1368*) SCall [] "F::normalize" [AMut "self"];
    (*1369*) SCall [] "F::normalized_bitor" [AMut "self"; AVal "rhs"] ]
    [].

(* src/field/mod_e383_187.rs:1372-1380  PrimeField  F::normalized_bitor *)
Definition f_normalized_bitor : func := mkfunc ["self"; "rhs"] [
    (*1373*) SSet "self" #0 (("self".[#0]) .| ("rhs".[#0]));
    (*1374*) SSet "self" #1 (("self".[#1]) .| ("rhs".[#1]));
    (*1375*) SSet "self" #2 (("self".[#2]) .| ("rhs".[#2]));
    (*1376*) SSet "self" #3 (("self".[#3]) .| ("rhs".[#3]));
    (*1377*) SSet "self" #4 (("self".[#4]) .| ("rhs".[#4]));
    (*1378*) SSet "self" #5 (("self".[#5]) .| ("rhs".[#5]));
    (*1379*) SSet "self" #6 (("self".[#6]) .| ("rhs".[#6])) ]
    [].

(* src/field/mod_e383_187.rs:1382-1384  PrimeField  F::zero *)
Definition f_zero : func := mkfunc [] [
 ]
    [ELit ZERO].

(* src/field/mod_e383_187.rs:1386-1388  PrimeField  F::one *)
Definition f_one : func := mkfunc [] [
 ]
    [ELit ONE].

(* src/field/mod_e383_187.rs:1390-1392  PrimeField  F::m_one *)
Definition f_m_one : func := mkfunc [] [
 ]
    [ELit M_ONE].

(* src/field/mod_e383_187.rs:1394-1396  PrimeField  F::modulus *)
Definition f_modulus : func := mkfunc [] [
 ]
    [ELit MODULUS].

(* src/field/mod_e383_187.rs:1398-1839  PrimeField  F::square *)
Definition f_square : func := mkfunc ["self"] [
    (*1399*) "a0" <- ("self".[#0]) .& #0x0fffffff;
    (*1400*) "a1" <- ("self".[#0]) .>> #28;
    (*1401*) "a2" <- ("self".[#1]) .& #0x0fffffff;
    (*1402*) "a3" <- ("self".[#1]) .>> #28;
    (*1403*) "a4" <- ("self".[#2]) .& #0x0fffffff;
    (*1404*) "a5" <- ("self".[#2]) .>> #28;
    (*1405*) "a6" <- ("self".[#3]) .& #0x0fffffff;
    (*1406*) "a7" <- ("self".[#3]) .>> #28;
    (*1407*) "a8" <- ("self".[#4]) .& #0x0fffffff;
    (*1408*) "a9" <- ("self".[#4]) .>> #28;
    (*1409*) "a10" <- ("self".[#5]) .& #0x0fffffff;
    (*1410*) "a11" <- ("self".[#5]) .>> #28;
    (*1411*) "a12" <- ("self".[#6]) .& #0x0fffffff;
    (*1412*) "a13" <- ("self".[#6]) .>> #28;
    (*1415*) "m_0_0" <- "a0" .* "a0";
    (*1416*) "m_0_1" <- "a0" .* "a1";
    (*1417*) "m_0_2" <- "a0" .* "a2";
    (*1418*) "m_0_3" <- "a0" .* "a3";
    (*1419*) "m_0_4" <- "a0" .* "a4";
    (*1420*) "m_0_5" <- "a0" .* "a5";
    (*1421*) "m_0_6" <- "a0" .* "a6";
    (*1422*) "m_0_7" <- "a0" .* "a7";
    (*1423*) "m_0_8" <- "a0" .* "a8";
    (*1424*) "m_0_9" <- "a0" .* "a9";
    (*1425*) "m_0_10" <- "a0" .* "a10";
    (*1426*) "m_0_11" <- "a0" .* "a11";
    (*1427*) "m_0_12" <- "a0" .* "a12";
    (*1428*) "m_0_13" <- "a0" .* "a13";
    (*1429*) "m_1_0" <- "m_0_1";
    (*1430*) "m_1_1" <- "a1" .* "a1";
    (*1431*) "m_1_2" <- "a1" .* "a2";
    (*1432*) "m_1_3" <- "a1" .* "a3";
    (*1433*) "m_1_4" <- "a1" .* "a4";
    (*1434*) "m_1_5" <- "a1" .* "a5";
    (*1435*) "m_1_6" <- "a1" .* "a6";
    (*1436*) "m_1_7" <- "a1" .* "a7";
    (*1437*) "m_1_8" <- "a1" .* "a8";
    (*1438*) "m_1_9" <- "a1" .* "a9";
    (*1439*) "m_1_10" <- "a1" .* "a10";
    (*1440*) "m_1_11" <- "a1" .* "a11";
    (*1441*) "m_1_12" <- "a1" .* "a12";
    (*1442*) "m_1_13" <- "a1" .* "a13";
    (*1443*) "m_2_0" <- "m_0_2";
    (*1444*) "m_2_1" <- "m_1_2";
    (*1445*) "m_2_2" <- "a2" .* "a2";
    (*1446*) "m_2_3" <- "a2" .* "a3";
    (*1447*) "m_2_4" <- "a2" .* "a4";
    (*1448*) "m_2_5" <- "a2" .* "a5";
    (*1449*) "m_2_6" <- "a2" .* "a6";
    (*1450*) "m_2_7" <- "a2" .* "a7";
    (*1451*) "m_2_8" <- "a2" .* "a8";
    (*1452*) "m_2_9" <- "a2" .* "a9";
    (*1453*) "m_2_10" <- "a2" .* "a10";
    (*1454*) "m_2_11" <- "a2" .* "a11";
    (*1455*) "m_2_12" <- "a2" .* "a12";
    (*1456*) "m_2_13" <- "a2" .* "a13";
    (*1457*) "m_3_0" <- "m_0_3";
    (*1458*) "m_3_1" <- "m_1_3";
    (*1459*) "m_3_2" <- "m_2_3";
    (*1460*) "m_3_3" <- "a3" .* "a3";
    (*1461*) "m_3_4" <- "a3" .* "a4";
    (*1462*) "m_3_5" <- "a3" .* "a5";
    (*1463*) "m_3_6" <- "a3" .* "a6";
    (*1464*) "m_3_7" <- "a3" .* "a7";
    (*1465*) "m_3_8" <- "a3" .* "a8";
    (*1466*) "m_3_9" <- "a3" .* "a9";
    (*1467*) "m_3_10" <- "a3" .* "a10";
    (*1468*) "m_3_11" <- "a3" .* "a11";
    (*1469*) "m_3_12" <- "a3" .* "a12";
    (*1470*) "m_3_13" <- "a3" .* "a13";
    (*1471*) "m_4_0" <- "m_0_4";
    (*1472*) "m_4_1" <- "m_1_4";
    (*1473*) "m_4_2" <- "m_2_4";
    (*1474*) "m_4_3" <- "m_3_4";
    (*1475*) "m_4_4" <- "a4" .* "a4";
    (*1476*) "m_4_5" <- "a4" .* "a5";
    (*1477*) "m_4_6" <- "a4" .* "a6";
    (*1478*) "m_4_7" <- "a4" .* "a7";
    (*1479*) "m_4_8" <- "a4" .* "a8";
    (*1480*) "m_4_9" <- "a4" .* "a9";
    (*1481*) "m_4_10" <- "a4" .* "a10";
    (*1482*) "m_4_11" <- "a4" .* "a11";
    (*1483*) "m_4_12" <- "a4" .* "a12";
    (*1484*) "m_4_13" <- "a4" .* "a13";
    (*1485*) "m_5_0" <- "m_0_5";
    (*1486*) "m_5_1" <- "m_1_5";
    (*1487*) "m_5_2" <- "m_2_5";
    (*1488*) "m_5_3" <- "m_3_5";
    (*1489*) "m_5_4" <- "m_4_5";
    (*1490*) "m_5_5" <- "a5" .* "a5";
    (*1491*) "m_5_6" <- "a5" .* "a6";
    (*1492*) "m_5_7" <- "a5" .* "a7";
    (*1493*) "m_5_8" <- "a5" .* "a8";
    (*1494*) "m_5_9" <- "a5" .* "a9";
    (*1495*) "m_5_10" <- "a5" .* "a10";
    (*1496*) "m_5_11" <- "a5" .* "a11";
    (*1497*) "m_5_12" <- "a5" .* "a12";
    (*1498*) "m_5_13" <- "a5" .* "a13";
    (*1499*) "m_6_0" <- "m_0_6";
    (*1500*) "m_6_1" <- "m_1_6";
    (*1501*) "m_6_2" <- "m_2_6";
    (*1502*) "m_6_3" <- "m_3_6";
    (*1503*) "m_6_4" <- "m_4_6";
    (*1504*) "m_6_5" <- "m_5_6";
    (*1505*) "m_6_6" <- "a6" .* "a6";
    (*1506*) "m_6_7" <- "a6" .* "a7";
    (*1507*) "m_6_8" <- "a6" .* "a8";
    (*1508*) "m_6_9" <- "a6" .* "a9";
    (*1509*) "m_6_10" <- "a6" .* "a10";
    (*1510*) "m_6_11" <- "a6" .* "a11";
    (*1511*) "m_6_12" <- "a6" .* "a12";
    (*1512*) "m_6_13" <- "a6" .* "a13";
    (*1513*) "m_7_0" <- "m_0_7";
    (*1514*) "m_7_1" <- "m_1_7";
    (*1515*) "m_7_2" <- "m_2_7";
    (*1516*) "m_7_3" <- "m_3_7";
    (*1517*) "m_7_4" <- "m_4_7";
    (*1518*) "m_7_5" <- "m_5_7";
    (*1519*) "m_7_6" <- "m_6_7";
    (*1520*) "m_7_7" <- "a7" .* "a7";
    (*1521*) "m_7_8" <- "a7" .* "a8";
    (*1522*) "m_7_9" <- "a7" .* "a9";
    (*1523*) "m_7_10" <- "a7" .* "a10";
    (*1524*) "m_7_11" <- "a7" .* "a11";
    (*1525*) "m_7_12" <- "a7" .* "a12";
    (*1526*) "m_7_13" <- "a7" .* "a13";
    (*1527*) "m_8_0" <- "m_0_8";
    (*1528*) "m_8_1" <- "m_1_8";
    (*1529*) "m_8_2" <- "m_2_8";
    (*1530*) "m_8_3" <- "m_3_8";
    (*1531*) "m_8_4" <- "m_4_8";
    (*1532*) "m_8_5" <- "m_5_8";
    (*1533*) "m_8_6" <- "m_6_8";
    (*1534*) "m_8_7" <- "m_7_8";
    (*1535*) "m_8_8" <- "a8" .* "a8";
    (*1536*) "m_8_9" <- "a8" .* "a9";
    (*1537*) "m_8_10" <- "a8" .* "a10";
    (*1538*) "m_8_11" <- "a8" .* "a11";
    (*1539*) "m_8_12" <- "a8" .* "a12";
    (*1540*) "m_8_13" <- "a8" .* "a13";
    (*1541*) "m_9_0" <- "m_0_9";
    (*1542*) "m_9_1" <- "m_1_9";
    (*1543*) "m_9_2" <- "m_2_9";
    (*1544*) "m_9_3" <- "m_3_9";
    (*1545*) "m_9_4" <- "m_4_9";
    (*1546*) "m_9_5" <- "m_5_9";
    (*1547*) "m_9_6" <- "m_6_9";
    (*1548*) "m_9_7" <- "m_7_9";
    (*1549*) "m_9_8" <- "m_8_9";
    (*1550*) "m_9_9" <- "a9" .* "a9";
    (*1551*) "m_9_10" <- "a9" .* "a10";
    (*1552*) "m_9_11" <- "a9" .* "a11";
    (*1553*) "m_9_12" <- "a9" .* "a12";
    (*1554*) "m_9_13" <- "a9" .* "a13";
    (*1555*) "m_10_0" <- "m_0_10";
    (*1556*) "m_10_1" <- "m_1_10";
    (*1557*) "m_10_2" <- "m_2_10";
    (*1558*) "m_10_3" <- "m_3_10";
    (*1559*) "m_10_4" <- "m_4_10";
    (*1560*) "m_10_5" <- "m_5_10";
    (*1561*) "m_10_6" <- "m_6_10";
    (*1562*) "m_10_7" <- "m_7_10";
    (*1563*) "m_10_8" <- "m_8_10";
    (*1564*) "m_10_9" <- "m_9_10";
    (*1565*) "m_10_10" <- "a10" .* "a10";
    (*1566*) "m_10_11" <- "a10" .* "a11";
    (*1567*) "m_10_12" <- "a10" .* "a12";
    (*1568*) "m_10_13" <- "a10" .* "a13";
    (*1569*) "m_11_0" <- "m_0_11";
    (*1570*) "m_11_1" <- "m_1_11";
    (*1571*) "m_11_2" <- "m_2_11";
    (*1572*) "m_11_3" <- "m_3_11";
    (*1573*) "m_11_4" <- "m_4_11";
    (*1574*) "m_11_5" <- "m_5_11";
    (*1575*) "m_11_6" <- "m_6_11";
    (*1576*) "m_11_7" <- "m_7_11";
    (*1577*) "m_11_8" <- "m_8_11";
    (*1578*) "m_11_9" <- "m_9_11";
    (*1579*) "m_11_10" <- "m_10_11";
    (*1580*) "m_11_11" <- "a11" .* "a11";
    (*1581*) "m_11_12" <- "a11" .* "a12";
    (*1582*) "m_11_13" <- "a11" .* "a13";
    (*1583*) "m_12_0" <- "m_0_12";
    (*1584*) "m_12_1" <- "m_1_12";
    (*1585*) "m_12_2" <- "m_2_12";
    (*1586*) "m_12_3" <- "m_3_12";
    (*1587*) "m_12_4" <- "m_4_12";
    (*1588*) "m_12_5" <- "m_5_12";
    (*1589*) "m_12_6" <- "m_6_12";
    (*1590*) "m_12_7" <- "m_7_12";
    (*1591*) "m_12_8" <- "m_8_12";
    (*1592*) "m_12_9" <- "m_9_12";
    (*1593*) "m_12_10" <- "m_10_12";
    (*1594*) "m_12_11" <- "m_11_12";
    (*1595*) "m_12_12" <- "a12" .* "a12";
    (*1596*) "m_12_13" <- "a12" .* "a13";
    (*1597*) "m_13_0" <- "m_0_13";
    (*1598*) "m_13_1" <- "m_1_13";
    (*1599*) "m_13_2" <- "m_2_13";
    (*1600*) "m_13_3" <- "m_3_13";
    (*1601*) "m_13_4" <- "m_4_13";
    (*1602*) "m_13_5" <- "m_5_13";
    (*1603*) "m_13_6" <- "m_6_13";
    (*1604*) "m_13_7" <- "m_7_13";
    (*1605*) "m_13_8" <- "m_8_13";
    (*1606*) "m_13_9" <- "m_9_13";
    (*1607*) "m_13_10" <- "m_10_13";
    (*1608*) "m_13_11" <- "m_11_13";
    (*1609*) "m_13_12" <- "m_12_13";
    (*1610*) "m_13_13" <- "a13" .* "a13";
    (*1613*) "d0" <- ("m_0_0" .+ (("m_0_1" .& #0x0fffffff) .<< #28)) .+ (("m_1_0" .& #0x0fffffff) .<< #28);
    (*1615*) "c0" <- "d0" .>> #56;
    (*1616*) "d1" <- ((((((((("m_0_1" .>> #28) .+ "m_0_2") .+ (("m_0_3" .& #0x0fffffff) .<< #28)) .+ ("m_1_0" .>> #28)) .+ "m_1_1") .+ (("m_1_2" .& #0x0fffffff) .<< #28)) .+ "m_2_0") .+ (("m_2_1" .& #0x0fffffff) .<< #28)) .+ (("m_3_0" .& #0x0fffffff) .<< #28)) .+ "c0";
    (*1620*) "c1" <- "d1" .>> #56;
    (*1621*) "d2" <- ((((((((((((((("m_0_3" .>> #28) .+ "m_0_4") .+ (("m_0_5" .& #0x0fffffff) .<< #28)) .+ ("m_1_2" .>> #28)) .+ "m_1_3") .+ (("m_1_4" .& #0x0fffffff) .<< #28)) .+ ("m_2_1" .>> #28)) .+ "m_2_2") .+ (("m_2_3" .& #0x0fffffff) .<< #28)) .+ ("m_3_0" .>> #28)) .+ "m_3_1") .+ (("m_3_2" .& #0x0fffffff) .<< #28)) .+ "m_4_0") .+ (("m_4_1" .& #0x0fffffff) .<< #28)) .+ (("m_5_0" .& #0x0fffffff) .<< #28)) .+ "c1";
    (*1627*) "c2" <- "d2" .>> #56;
    (*1628*) "d3" <- ((((((((((((((((((((("m_0_5" .>> #28) .+ "m_0_6") .+ (("m_0_7" .& #0x0fffffff) .<< #28)) .+ ("m_1_4" .>> #28)) .+ "m_1_5") .+ (("m_1_6" .& #0x0fffffff) .<< #28)) .+ ("m_2_3" .>> #28)) .+ "m_2_4") .+ (("m_2_5" .& #0x0fffffff) .<< #28)) .+ ("m_3_2" .>> #28)) .+ "m_3_3") .+ (("m_3_4" .& #0x0fffffff) .<< #28)) .+ ("m_4_1" .>> #28)) .+ "m_4_2") .+ (("m_4_3" .& #0x0fffffff) .<< #28)) .+ ("m_5_0" .>> #28)) .+ "m_5_1") .+ (("m_5_2" .& #0x0fffffff) .<< #28)) .+ "m_6_0") .+ (("m_6_1" .& #0x0fffffff) .<< #28)) .+ (("m_7_0" .& #0x0fffffff) .<< #28)) .+ "c2";
    (*1636*) "c3" <- "d3" .>> #56;
    (*1637*) "d4" <- ((((((((((((((((((((((((((("m_0_7" .>> #28) .+ "m_0_8") .+ (("m_0_9" .& #0x0fffffff) .<< #28)) .+ ("m_1_6" .>> #28)) .+ "m_1_7") .+ (("m_1_8" .& #0x0fffffff) .<< #28)) .+ ("m_2_5" .>> #28)) .+ "m_2_6") .+ (("m_2_7" .& #0x0fffffff) .<< #28)) .+ ("m_3_4" .>> #28)) .+ "m_3_5") .+ (("m_3_6" .& #0x0fffffff) .<< #28)) .+ ("m_4_3" .>> #28)) .+ "m_4_4") .+ (("m_4_5" .& #0x0fffffff) .<< #28)) .+ ("m_5_2" .>> #28)) .+ "m_5_3") .+ (("m_5_4" .& #0x0fffffff) .<< #28)) .+ ("m_6_1" .>> #28)) .+ "m_6_2") .+ (("m_6_3" .& #0x0fffffff) .<< #28)) .+ ("m_7_0" .>> #28)) .+ "m_7_1") .+ (("m_7_2" .& #0x0fffffff) .<< #28)) .+ "m_8_0") .+ (("m_8_1" .& #0x0fffffff) .<< #28)) .+ (("m_9_0" .& #0x0fffffff) .<< #28)) .+ "c3";
    (*1647*) "c4" <- "d4" .>> #56;
    (*1648*) "d5" <- ((((((((((((((((((((((((((((((((("m_0_9" .>> #28) .+ "m_0_10") .+ (("m_0_11" .& #0x0fffffff) .<< #28)) .+ ("m_1_8" .>> #28)) .+ "m_1_9") .+ (("m_1_10" .& #0x0fffffff) .<< #28)) .+ ("m_2_7" .>> #28)) .+ "m_2_8") .+ (("m_2_9" .& #0x0fffffff) .<< #28)) .+ ("m_3_6" .>> #28)) .+ "m_3_7") .+ (("m_3_8" .& #0x0fffffff) .<< #28)) .+ ("m_4_5" .>> #28)) .+ "m_4_6") .+ (("m_4_7" .& #0x0fffffff) .<< #28)) .+ ("m_5_4" .>> #28)) .+ "m_5_5") .+ (("m_5_6" .& #0x0fffffff) .<< #28)) .+ ("m_6_3" .>> #28)) .+ "m_6_4") .+ (("m_6_5" .& #0x0fffffff) .<< #28)) .+ ("m_7_2" .>> #28)) .+ "m_7_3") .+ (("m_7_4" .& #0x0fffffff) .<< #28)) .+ ("m_8_1" .>> #28)) .+ "m_8_2") .+ (("m_8_3" .& #0x0fffffff) .<< #28)) .+ ("m_9_0" .>> #28)) .+ "m_9_1") .+ (("m_9_2" .& #0x0fffffff) .<< #28)) .+ "m_10_0") .+ (("m_10_1" .& #0x0fffffff) .<< #28)) .+ (("m_11_0" .& #0x0fffffff) .<< #28)) .+ "c4";
    (*1660*) "c5" <- "d5" .>> #56;
    (*1661*) "d6" <- ((((((((((((((((((((((((((((((((((((((("m_0_11" .>> #28) .+ "m_0_12") .+ (("m_0_13" .& #0x0fffffff) .<< #28)) .+ ("m_1_10" .>> #28)) .+ "m_1_11") .+ (("m_1_12" .& #0x0fffffff) .<< #28)) .+ ("m_2_9" .>> #28)) .+ "m_2_10") .+ (("m_2_11" .& #0x0fffffff) .<< #28)) .+ ("m_3_8" .>> #28)) .+ "m_3_9") .+ (("m_3_10" .& #0x0fffffff) .<< #28)) .+ ("m_4_7" .>> #28)) .+ "m_4_8") .+ (("m_4_9" .& #0x0fffffff) .<< #28)) .+ ("m_5_6" .>> #28)) .+ "m_5_7") .+ (("m_5_8" .& #0x0fffffff) .<< #28)) .+ ("m_6_5" .>> #28)) .+ "m_6_6") .+ (("m_6_7" .& #0x0fffffff) .<< #28)) .+ ("m_7_4" .>> #28)) .+ "m_7_5") .+ (("m_7_6" .& #0x0fffffff) .<< #28)) .+ ("m_8_3" .>> #28)) .+ "m_8_4") .+ (("m_8_5" .& #0x0fffffff) .<< #28)) .+ ("m_9_2" .>> #28)) .+ "m_9_3") .+ (("m_9_4" .& #0x0fffffff) .<< #28)) .+ ("m_10_1" .>> #28)) .+ "m_10_2") .+ (("m_10_3" .& #0x0fffffff) .<< #28)) .+ ("m_11_0" .>> #28)) .+ "m_11_1") .+ (("m_11_2" .& #0x0fffffff) .<< #28)) .+ "m_12_0") .+ (("m_12_1" .& #0x0fffffff) .<< #28)) .+ (("m_13_0" .& #0x0fffffff) .<< #28)) .+ "c5";
    (*1675*) "c6" <- "d6" .>> #56;
    (*1676*) "d7" <- ((((((((((((((((((((((((((((((((((((((("m_0_13" .>> #28) .+ ("m_1_12" .>> #28)) .+ "m_1_13") .+ ("m_2_11" .>> #28)) .+ "m_2_12") .+ (("m_2_13" .& #0x0fffffff) .<< #28)) .+ ("m_3_10" .>> #28)) .+ "m_3_11") .+ (("m_3_12" .& #0x0fffffff) .<< #28)) .+ ("m_4_9" .>> #28)) .+ "m_4_10") .+ (("m_4_11" .& #0x0fffffff) .<< #28)) .+ ("m_5_8" .>> #28)) .+ "m_5_9") .+ (("m_5_10" .& #0x0fffffff) .<< #28)) .+ ("m_6_7" .>> #28)) .+ "m_6_8") .+ (("m_6_9" .& #0x0fffffff) .<< #28)) .+ ("m_7_6" .>> #28)) .+ "m_7_7") .+ (("m_7_8" .& #0x0fffffff) .<< #28)) .+ ("m_8_5" .>> #28)) .+ "m_8_6") .+ (("m_8_7" .& #0x0fffffff) .<< #28)) .+ ("m_9_4" .>> #28)) .+ "m_9_5") .+ (("m_9_6" .& #0x0fffffff) .<< #28)) .+ ("m_10_3" .>> #28)) .+ "m_10_4") .+ (("m_10_5" .& #0x0fffffff) .<< #28)) .+ ("m_11_2" .>> #28)) .+ "m_11_3") .+ (("m_11_4" .& #0x0fffffff) .<< #28)) .+ ("m_12_1" .>> #28)) .+ "m_12_2") .+ (("m_12_3" .& #0x0fffffff) .<< #28)) .+ ("m_13_0" .>> #28)) .+ "m_13_1") .+ (("m_13_2" .& #0x0fffffff) .<< #28)) .+ "c6";
    (*1691*) "c7" <- "d7" .>> #56;
    (*1692*) "d8" <- ((((((((((((((((((((((((((((((((("m_2_13" .>> #28) .+ ("m_3_12" .>> #28)) .+ "m_3_13") .+ ("m_4_11" .>> #28)) .+ "m_4_12") .+ (("m_4_13" .& #0x0fffffff) .<< #28)) .+ ("m_5_10" .>> #28)) .+ "m_5_11") .+ (("m_5_12" .& #0x0fffffff) .<< #28)) .+ ("m_6_9" .>> #28)) .+ "m_6_10") .+ (("m_6_11" .& #0x0fffffff) .<< #28)) .+ ("m_7_8" .>> #28)) .+ "m_7_9") .+ (("m_7_10" .& #0x0fffffff) .<< #28)) .+ ("m_8_7" .>> #28)) .+ "m_8_8") .+ (("m_8_9" .& #0x0fffffff) .<< #28)) .+ ("m_9_6" .>> #28)) .+ "m_9_7") .+ (("m_9_8" .& #0x0fffffff) .<< #28)) .+ ("m_10_5" .>> #28)) .+ "m_10_6") .+ (("m_10_7" .& #0x0fffffff) .<< #28)) .+ ("m_11_4" .>> #28)) .+ "m_11_5") .+ (("m_11_6" .& #0x0fffffff) .<< #28)) .+ ("m_12_3" .>> #28)) .+ "m_12_4") .+ (("m_12_5" .& #0x0fffffff) .<< #28)) .+ ("m_13_2" .>> #28)) .+ "m_13_3") .+ (("m_13_4" .& #0x0fffffff) .<< #28)) .+ "c7";
    (*1705*) "c8" <- "d8" .>> #56;
    (*1706*) "d9" <- ((((((((((((((((((((((((((("m_4_13" .>> #28) .+ ("m_5_12" .>> #28)) .+ "m_5_13") .+ ("m_6_11" .>> #28)) .+ "m_6_12") .+ (("m_6_13" .& #0x0fffffff) .<< #28)) .+ ("m_7_10" .>> #28)) .+ "m_7_11") .+ (("m_7_12" .& #0x0fffffff) .<< #28)) .+ ("m_8_9" .>> #28)) .+ "m_8_10") .+ (("m_8_11" .& #0x0fffffff) .<< #28)) .+ ("m_9_8" .>> #28)) .+ "m_9_9") .+ (("m_9_10" .& #0x0fffffff) .<< #28)) .+ ("m_10_7" .>> #28)) .+ "m_10_8") .+ (("m_10_9" .& #0x0fffffff) .<< #28)) .+ ("m_11_6" .>> #28)) .+ "m_11_7") .+ (("m_11_8" .& #0x0fffffff) .<< #28)) .+ ("m_12_5" .>> #28)) .+ "m_12_6") .+ (("m_12_7" .& #0x0fffffff) .<< #28)) .+ ("m_13_4" .>> #28)) .+ "m_13_5") .+ (("m_13_6" .& #0x0fffffff) .<< #28)) .+ "c8";
    (*1717*) "c9" <- "d9" .>> #56;
    (*1718*) "d10" <- ((((((((((((((((((((("m_6_13" .>> #28) .+ ("m_7_12" .>> #28)) .+ "m_7_13") .+ ("m_8_11" .>> #28)) .+ "m_8_12") .+ (("m_8_13" .& #0x0fffffff) .<< #28)) .+ ("m_9_10" .>> #28)) .+ "m_9_11") .+ (("m_9_12" .& #0x0fffffff) .<< #28)) .+ ("m_10_9" .>> #28)) .+ "m_10_10") .+ (("m_10_11" .& #0x0fffffff) .<< #28)) .+ ("m_11_8" .>> #28)) .+ "m_11_9") .+ (("m_11_10" .& #0x0fffffff) .<< #28)) .+ ("m_12_7" .>> #28)) .+ "m_12_8") .+ (("m_12_9" .& #0x0fffffff) .<< #28)) .+ ("m_13_6" .>> #28)) .+ "m_13_7") .+ (("m_13_8" .& #0x0fffffff) .<< #28)) .+ "c9";
    (*1727*) "c10" <- "d10" .>> #56;
    (*1728*) "d11" <- ((((((((((((((("m_8_13" .>> #28) .+ ("m_9_12" .>> #28)) .+ "m_9_13") .+ ("m_10_11" .>> #28)) .+ "m_10_12") .+ (("m_10_13" .& #0x0fffffff) .<< #28)) .+ ("m_11_10" .>> #28)) .+ "m_11_11") .+ (("m_11_12" .& #0x0fffffff) .<< #28)) .+ ("m_12_9" .>> #28)) .+ "m_12_10") .+ (("m_12_11" .& #0x0fffffff) .<< #28)) .+ ("m_13_8" .>> #28)) .+ "m_13_9") .+ (("m_13_10" .& #0x0fffffff) .<< #28)) .+ "c10";
    (*1735*) "c11" <- "d11" .>> #56;
    (*1736*) "d12" <- ((((((((("m_10_13" .>> #28) .+ ("m_11_12" .>> #28)) .+ "m_11_13") .+ ("m_12_11" .>> #28)) .+ "m_12_12") .+ (("m_12_13" .& #0x0fffffff) .<< #28)) .+ ("m_13_10" .>> #28)) .+ "m_13_11") .+ (("m_13_12" .& #0x0fffffff) .<< #28)) .+ "c11";
    (*1741*) "c12" <- "d12" .>> #56;
    (*1742*) "d13" <- ((("m_12_13" .>> #28) .+ ("m_13_12" .>> #28)) .+ "m_13_13") .+ "c12";
    (*1749*) "l0_0" <- "d0" .& #0x00ffffffffffffff;
    (*1750*) "l1_0" <- "d1" .& #0x00ffffffffffffff;
    (*1751*) "l2_0" <- "d2" .& #0x00ffffffffffffff;
    (*1752*) "l3_0" <- "d3" .& #0x00ffffffffffffff;
    (*1753*) "l4_0" <- "d4" .& #0x00ffffffffffffff;
    (*1754*) "l5_0" <- "d5" .& #0x00ffffffffffffff;
    (*1755*) "l6_0" <- "d6" .& #0x00007fffffffffff;
    (*1758*) "h0_0" <- (("d6" .& #0x00ffffffffffffff) .>> #47) .| (("d7" .& #0x000000000007ffff) .<< #9);
    (*1760*) "h1_0" <- ("d7" .& #0x00007ffffff80000) .>> #19;
    (*1761*) "h2_0" <- (("d7" .& #0x00ffffffffffffff) .>> #47) .| (("d8" .& #0x000000000007ffff) .<< #9);
    (*1763*) "h3_0" <- ("d8" .& #0x00007ffffff80000) .>> #19;
    (*1764*) "h4_0" <- (("d8" .& #0x00ffffffffffffff) .>> #47) .| (("d9" .& #0x000000000007ffff) .<< #9);
    (*1766*) "h5_0" <- ("d9" .& #0x00007ffffff80000) .>> #19;
    (*1767*) "h6_0" <- (("d9" .& #0x00ffffffffffffff) .>> #47) .| (("d10" .& #0x000000000007ffff) .<< #9);
    (*1769*) "h7_0" <- ("d10" .& #0x00007ffffff80000) .>> #19;
    (*1770*) "h8_0" <- (("d10" .& #0x00ffffffffffffff) .>> #47) .| (("d11" .& #0x000000000007ffff) .<< #9);
    (*1772*) "h9_0" <- ("d11" .& #0x00007ffffff80000) .>> #19;
    (*1773*) "h10_0" <- (("d11" .& #0x00ffffffffffffff) .>> #47) .| (("d12" .& #0x000000000007ffff) .<< #9);
    (*1775*) "h11_0" <- ("d12" .& #0x00007ffffff80000) .>> #19;
    (*1776*) "h12_0" <- (("d12" .& #0x00ffffffffffffff) .>> #47) .| (("d13" .& #0x000000000007ffff) .<< #9);
    (*1778*) "h13_0" <- "d13" .>> #19;
    (*1781*) "hc0_0" <- "h0_0" .* (EInt C_VAL);
    (*1782*) "hc1_0" <- "h1_0" .* (EInt C_VAL);
    (*1783*) "hc2_0" <- "h2_0" .* (EInt C_VAL);
    (*1784*) "hc3_0" <- "h3_0" .* (EInt C_VAL);
    (*1785*) "hc4_0" <- "h4_0" .* (EInt C_VAL);
    (*1786*) "hc5_0" <- "h5_0" .* (EInt C_VAL);
    (*1787*) "hc6_0" <- "h6_0" .* (EInt C_VAL);
    (*1788*) "hc7_0" <- "h7_0" .* (EInt C_VAL);
    (*1789*) "hc8_0" <- "h8_0" .* (EInt C_VAL);
    (*1790*) "hc9_0" <- "h9_0" .* (EInt C_VAL);
    (*1791*) "hc10_0" <- "h10_0" .* (EInt C_VAL);
    (*1792*) "hc11_0" <- "h11_0" .* (EInt C_VAL);
    (*1793*) "hc12_0" <- "h12_0" .* (EInt C_VAL);
    (*1794*) "hc13_0" <- "h13_0" .* (EInt C_VAL);
    (*1796*) "hm0_0" <- "hc0_0" .+ (("hc1_0" .& #0x0fffffff) .<< #28);
    (*1797*) "hmk0_0" <- "hm0_0" .>> #56;
    (*1798*) "hm1_0" <- ((("hc1_0" .>> #28) .+ "hc2_0") .+ (("hc3_0" .& #0x0fffffff) .<< #28)) .+ "hmk0_0";
    (*1800*) "hmk1_0" <- "hm1_0" .>> #56;
    (*1801*) "hm2_0" <- ((("hc3_0" .>> #28) .+ "hc4_0") .+ (("hc5_0" .& #0x0fffffff) .<< #28)) .+ "hmk1_0";
    (*1803*) "hmk2_0" <- "hm2_0" .>> #56;
    (*1804*) "hm3_0" <- ((("hc5_0" .>> #28) .+ "hc6_0") .+ (("hc7_0" .& #0x0fffffff) .<< #28)) .+ "hmk2_0";
    (*1806*) "hmk3_0" <- "hm3_0" .>> #56;
    (*1807*) "hm4_0" <- ((("hc7_0" .>> #28) .+ "hc8_0") .+ (("hc9_0" .& #0x0fffffff) .<< #28)) .+ "hmk3_0";
    (*1809*) "hmk4_0" <- "hm4_0" .>> #56;
    (*1810*) "hm5_0" <- ((("hc9_0" .>> #28) .+ "hc10_0") .+ (("hc11_0" .& #0x0fffffff) .<< #28)) .+ "hmk4_0";
    (*1812*) "hmk5_0" <- "hm5_0" .>> #56;
    (*1813*) "hm6_0" <- ((("hc11_0" .>> #28) .+ "hc12_0") .+ ("hc13_0" .<< #28)) .+ "hmk5_0";
    (*1817*) "kin_0" <- "hm6_0" .>> #47;
    (*1818*) "s0_0" <- ("l0_0" .+ ("hm0_0" .& #0x00ffffffffffffff)) .+ ("kin_0" .* (EInt C_VAL));
    (*1819*) "k0_0" <- "s0_0" .>> #56;
    (*1820*) "s1_0" <- ("l1_0" .+ ("hm1_0" .& #0x00ffffffffffffff)) .+ "k0_0";
    (*1821*) "k1_0" <- "s1_0" .>> #56;
    (*1822*) "s2_0" <- ("l2_0" .+ ("hm2_0" .& #0x00ffffffffffffff)) .+ "k1_0";
    (*1823*) "k2_0" <- "s2_0" .>> #56;
    (*1824*) "s3_0" <- ("l3_0" .+ ("hm3_0" .& #0x00ffffffffffffff)) .+ "k2_0";
    (*1825*) "k3_0" <- "s3_0" .>> #56;
    (*1826*) "s4_0" <- ("l4_0" .+ ("hm4_0" .& #0x00ffffffffffffff)) .+ "k3_0";
    (*1827*) "k4_0" <- "s4_0" .>> #56;
    (*1828*) "s5_0" <- ("l5_0" .+ ("hm5_0" .& #0x00ffffffffffffff)) .+ "k4_0";
    (*1829*) "k5_0" <- "s5_0" .>> #56;
    (*1830*) "s6_0" <- ("l6_0" .+ ("hm6_0" .& #0x00007fffffffffff)) .+ "k5_0";
    (*1832*) SSet "self" #0 ("s0_0" .& #0x00ffffffffffffff);
    (*1833*) SSet "self" #1 ("s1_0" .& #0x00ffffffffffffff);
    (*1834*) SSet "self" #2 ("s2_0" .& #0x00ffffffffffffff);
    (*1835*) SSet "self" #3 ("s3_0" .& #0x00ffffffffffffff);
    (*1836*) SSet "self" #4 ("s4_0" .& #0x00ffffffffffffff);
    (*1837*) SSet "self" #5 ("s5_0" .& #0x00ffffffffffffff);
    (*1838*) SSet "self" #6 ("s6_0") ]
    [].

(* src/field/mod_e383_187.rs:1841-1847  PrimeField  F::squared *)
Definition f_squared : func := mkfunc ["self"] [
    (*1842*) "out" <- "self";
    (*1844*) SCall [] "F::square" [AMut "out"] ]
    [EVar "out"].

(* src/field/mod_e383_187.rs:1849-1875  PrimeField  F::invert *)
Definition f_invert : func := mkfunc ["self"] [
    (*1851*) "sqval" <- "self";
    (*1854*) SCall [] "F::square" [AMut "sqval"];
    (*1855*) SCall [] "F::mul_assign(&F)" [AMut "self"; AVal "sqval"];
    (*1858*) SCall [] "F::square" [AMut "sqval"];
    (*1859*) SCall [] "F::square" [AMut "sqval"];
    (*1860*) SCall [] "F::square" [AMut "sqval"];
    (*1861*) SCall [] "F::square" [AMut "sqval"];
    (*1864*) SCall [] "F::square" [AMut "sqval"];
    (*1865*) SCall [] "F::mul_assign(&F)" [AMut "self"; AVal "sqval"];
    (*1868*) SCall [] "F::square" [AMut "sqval"];
    (*1871*) SFor "_" #8 #383 [
      (*1872*) SCall [] "F::square" [AMut "sqval"];
      (*1873*) SCall [] "F::mul_assign(&F)" [AMut "self"; AVal "sqval"] ] ]
    [].

(* src/field/mod_e383_187.rs:1877-1883  PrimeField  F::inverted *)
Definition f_inverted : func := mkfunc ["self"] [
    (*1878*) "out" <- "self";
    (*1880*) SCall [] "F::invert" [AMut "out"] ]
    [EVar "out"].

(* src/field/mod_e383_187.rs:1885-1911  PrimeField  F::legendre *)
Definition f_legendre : func := mkfunc ["self"] [
    (*1889*) SCall ["out"] "F::squared" [AVal "self"];
    (*1890*) "sqval" <- "out";
    (*1893*) SCall [] "F::square" [AMut "sqval"];
    (*1894*) SCall [] "F::square" [AMut "sqval"];
    (*1895*) SCall [] "F::square" [AMut "sqval"];
    (*1898*) SCall [] "F::square" [AMut "sqval"];
    (*1899*) SCall [] "F::mul_assign(&F)" [AMut "out"; AVal "sqval"];
    (*1902*) SCall [] "F::square" [AMut "sqval"];
    (*1905*) SFor "_" #7 #382 [
      (*1906*) SCall [] "F::square" [AMut "sqval"];
      (*1907*) SCall [] "F::mul_assign(&F)" [AMut "out"; AVal "sqval"] ] ]
    [EVar "out"].

(* src/field/mod_e383_187.rs:1913-1943  PrimeField  F::sqrt *)
Definition f_sqrt : func := mkfunc ["self"] [
    (*1915*) "out" <- "self";
    (*1916*) "sqval" <- "out";
    (*1919*) SCall [] "F::square" [AMut "sqval"];
    (*1920*) SCall [] "F::square" [AMut "sqval"];
    (*1923*) SCall [] "F::square" [AMut "sqval"];
    (*1924*) SCall [] "F::mul_assign(&F)" [AMut "out"; AVal "sqval"];
    (*1927*) SCall [] "F::square" [AMut "sqval"];
    (*1930*) SFor "_" #5 #380 [
      (*1931*) SCall [] "F::square" [AMut "sqval"];
      (*1932*) SCall [] "F::mul_assign(&F)" [AMut "out"; AVal "sqval"] ];
    (*1935*) SCall ["coeff"] "F::quartic_legendre" [AVal "self"];
    (*1937*) SCall [] "F::sub_assign(&F)" [AMut "coeff"; AVal (ELit ONE)];
    (*1938*) SCall [] "F::mul_assign(&F)" [AMut "coeff"; AVal (ELit M_HALF)];
    (*1939*) SCall [] "F::mul_assign(&F)" [AMut "coeff"; AVal (ELit COEFF)];
    (*1940*) SCall [] "F::add_assign(&F)" [AMut "coeff"; AVal (ELit ONE)];
    (*1942*) SCall ["%2"] "(&F)::mul(&F)" [AVal "out"; AVal "coeff"] ]
    [EVar "%2"].

(* src/field/mod_e383_187.rs:1945-1978  PrimeField  F::small_add_assign *)
Definition f_small_add_assign : func := mkfunc ["self"; "rhs"] [
    (*1946*) "a0" <- "self".[#0];
    (*1947*) "a1" <- "self".[#1];
    (*1948*) "a2" <- "self".[#2];
    (*1949*) "a3" <- "self".[#3];
    (*1950*) "a4" <- "self".[#4];
    (*1951*) "a5" <- "self".[#5];
    (*1952*) "a6" <- ("self".[#6]) .& #0x00007fffffffffff;
    (*1954*) "b" <- ECast I64 "rhs";
    (*1956*) "cin" <- carry_out "self";
    (*1957*) "s0" <- ("a0" .+ "b") .+ ("cin" .* (EInt C_VAL));
    (*1958*) "c0" <- "s0" .>> #56;
    (*1959*) "s1" <- "a1" .+ "c0";
    (*1960*) "c1" <- "s1" .>> #56;
    (*1961*) "s2" <- "a2" .+ "c1";
    (*1962*) "c2" <- "s2" .>> #56;
    (*1963*) "s3" <- "a3" .+ "c2";
    (*1964*) "c3" <- "s3" .>> #56;
    (*1965*) "s4" <- "a4" .+ "c3";
    (*1966*) "c4" <- "s4" .>> #56;
    (*1967*) "s5" <- "a5" .+ "c4";
    (*1968*) "c5" <- "s5" .>> #56;
    (*1969*) "s6" <- "a6" .+ "c5";
    (*1971*) SSet "self" #0 ("s0" .& #0x00ffffffffffffff);
    (*1972*) SSet "self" #1 ("s1" .& #0x00ffffffffffffff);
    (*1973*) SSet "self" #2 ("s2" .& #0x00ffffffffffffff);
    (*1974*) SSet "self" #3 ("s3" .& #0x00ffffffffffffff);
    (*1975*) SSet "self" #4 ("s4" .& #0x00ffffffffffffff);
    (*1976*) SSet "self" #5 ("s5" .& #0x00ffffffffffffff);
    (*1977*) SSet "self" #6 ("s6") ]
    [].

(* src/field/mod_e383_187.rs:1980-1986  PrimeField  F::small_add *)
Definition f_small_add : func := mkfunc ["self"; "rhs"] [
    (*1981*) "out" <- "self";
    (*1983*) SCall [] "F::small_add_assign" [AMut "out"; AVal "rhs"] ]
    [EVar "out"].

(* src/field/mod_e383_187.rs:1988-2021  PrimeField  F::small_sub_assign *)
Definition f_small_sub_assign : func := mkfunc ["self"; "rhs"] [
    (*1989*) "a0" <- "self".[#0];
    (*1990*) "a1" <- "self".[#1];
    (*1991*) "a2" <- "self".[#2];
    (*1992*) "a3" <- "self".[#3];
    (*1993*) "a4" <- "self".[#4];
    (*1994*) "a5" <- "self".[#5];
    (*1995*) "a6" <- ("self".[#6]) .& #0x00007fffffffffff;
    (*1997*) "b" <- ECast I64 "rhs";
    (*1999*) "cin" <- carry_out "self";
    (*2000*) "s0" <- ("a0" .- "b") .+ ("cin" .* (EInt C_VAL));
    (*2001*) "c0" <- "s0" .>> #56;
    (*2002*) "s1" <- "a1" .+ "c0";
    (*2003*) "c1" <- "s1" .>> #56;
    (*2004*) "s2" <- "a2" .+ "c1";
    (*2005*) "c2" <- "s2" .>> #56;
    (*2006*) "s3" <- "a3" .+ "c2";
    (*2007*) "c3" <- "s3" .>> #56;
    (*2008*) "s4" <- "a4" .+ "c3";
    (*2009*) "c4" <- "s4" .>> #56;
    (*2010*) "s5" <- "a5" .+ "c4";
    (*2011*) "c5" <- "s5" .>> #56;
    (*2012*) "s6" <- "a6" .+ "c5";
    (*2014*) SSet "self" #0 ("s0" .& #0x00ffffffffffffff);
    (*2015*) SSet "self" #1 ("s1" .& #0x00ffffffffffffff);
    (*2016*) SSet "self" #2 ("s2" .& #0x00ffffffffffffff);
    (*2017*) SSet "self" #3 ("s3" .& #0x00ffffffffffffff);
    (*2018*) SSet "self" #4 ("s4" .& #0x00ffffffffffffff);
    (*2019*) SSet "self" #5 ("s5" .& #0x00ffffffffffffff);
    (*2020*) SSet "self" #6 ("s6") ]
    [].

(* src/field/mod_e383_187.rs:2023-2029  PrimeField  F::small_sub *)
Definition f_small_sub : func := mkfunc ["self"; "rhs"] [
    (*2024*) "out" <- "self";
    (*2026*) SCall [] "F::small_sub_assign" [AMut "out"; AVal "rhs"] ]
    [EVar "out"].

(* src/field/mod_e383_187.rs:2031-2086  PrimeField  F::small_mul_assign *)
Definition f_small_mul_assign : func := mkfunc ["self"; "rhs"] [
    (*2032*) "a0" <- ("self".[#0]) .& #0x0fffffff;
    (*2033*) "a1" <- ("self".[#0]) .>> #28;
    (*2034*) "a2" <- ("self".[#1]) .& #0x0fffffff;
    (*2035*) "a3" <- ("self".[#1]) .>> #28;
    (*2036*) "a4" <- ("self".[#2]) .& #0x0fffffff;
    (*2037*) "a5" <- ("self".[#2]) .>> #28;
    (*2038*) "a6" <- ("self".[#3]) .& #0x0fffffff;
    (*2039*) "a7" <- ("self".[#3]) .>> #28;
    (*2040*) "a8" <- ("self".[#4]) .& #0x0fffffff;
    (*2041*) "a9" <- ("self".[#4]) .>> #28;
    (*2042*) "a10" <- ("self".[#5]) .& #0x0fffffff;
    (*2043*) "a11" <- ("self".[#5]) .>> #28;
    (*2044*) "a12" <- ("self".[#6]) .& #0x0fffffff;
    (*2045*) "a13" <- ("self".[#6]) .>> #28;
    (*2047*) "b" <- ECast I64 "rhs";
    (*2049*) "m0" <- "a0" .* "b";
    (*2050*) "m1" <- "a1" .* "b";
    (*2051*) "m2" <- "a2" .* "b";
    (*2052*) "m3" <- "a3" .* "b";
    (*2053*) "m4" <- "a4" .* "b";
    (*2054*) "m5" <- "a5" .* "b";
    (*2055*) "m6" <- "a6" .* "b";
    (*2056*) "m7" <- "a7" .* "b";
    (*2057*) "m8" <- "a8" .* "b";
    (*2058*) "m9" <- "a9" .* "b";
    (*2059*) "m10" <- "a10" .* "b";
    (*2060*) "m11" <- "a11" .* "b";
    (*2061*) "m12" <- "a12" .* "b";
    (*2062*) "m13" <- "a13" .* "b";
    (*2064*) "cin" <- carry_out "self";
    (*2065*) "d0" <- ("m0" .+ (("m1" .& #0x0fffffff) .<< #28)) .+ ("cin" .* (EInt C_VAL));
    (*2066*) "c0" <- "d0" .>> #56;
    (*2067*) "d1" <- ((("m1" .>> #28) .+ "m2") .+ (("m3" .& #0x0fffffff) .<< #28)) .+ "c0";
    (*2068*) "c1" <- "d1" .>> #56;
    (*2069*) "d2" <- ((("m3" .>> #28) .+ "m4") .+ (("m5" .& #0x0fffffff) .<< #28)) .+ "c1";
    (*2070*) "c2" <- "d2" .>> #56;
    (*2071*) "d3" <- ((("m5" .>> #28) .+ "m6") .+ (("m7" .& #0x0fffffff) .<< #28)) .+ "c2";
    (*2072*) "c3" <- "d3" .>> #56;
    (*2073*) "d4" <- ((("m7" .>> #28) .+ "m8") .+ (("m9" .& #0x0fffffff) .<< #28)) .+ "c3";
    (*2074*) "c4" <- "d4" .>> #56;
    (*2075*) "d5" <- ((("m9" .>> #28) .+ "m10") .+ (("m11" .& #0x0fffffff) .<< #28)) .+ "c4";
    (*2076*) "c5" <- "d5" .>> #56;
    (*2077*) "d6" <- ((("m11" .>> #28) .+ "m12") .+ ("m13" .<< #28)) .+ "c5";
    (*2079*) SSet "self" #0 ("d0" .& #0x00ffffffffffffff);
    (*2080*) SSet "self" #1 ("d1" .& #0x00ffffffffffffff);
    (*2081*) SSet "self" #2 ("d2" .& #0x00ffffffffffffff);
    (*2082*) SSet "self" #3 ("d3" .& #0x00ffffffffffffff);
    (*2083*) SSet "self" #4 ("d4" .& #0x00ffffffffffffff);
    (*2084*) SSet "self" #5 ("d5" .& #0x00ffffffffffffff);
    (*2085*) SSet "self" #6 ("d6") ]
    [].

(* src/field/mod_e383_187.rs:2088-2094  PrimeField  F::small_mul *)
Definition f_small_mul : func := mkfunc ["self"; "b"] [
    (*2089*) "out" <- "self";
    (*2091*) SCall [] "F::small_mul_assign" [AMut "out"; AVal "b"] ]
    [EVar "out"].

(* the function table of this file: every non-test function *)
Definition table : list (string * func) := [
  ("F::Debug::fmt", f_Debug_fmt);
  ("F::LowerHex::fmt", f_LowerHex_fmt);
  ("F::UpperHex::fmt", f_UpperHex_fmt);
  ("F::packed", f_packed);
  ("F::quartic_legendre", f_quartic_legendre);
  ("F::neg", f_neg);
  ("F::add_assign(&F)", f_add_assign_ref);
  ("F::add_assign(F)", f_add_assign_val);
  ("F::add_assign(i32)", f_add_assign_i32);
  ("F::add_assign(i16)", f_add_assign_i16);
  ("F::add_assign(i8)", f_add_assign_i8);
  ("(&F)::add(&F)", f_ref_add_ref);
  ("F::add(F)", f_add_val);
  ("i32::add(&F)", f_i32_add_ref);
  ("i16::add(&F)", f_i16_add_ref);
  ("i8::add(&F)", f_i8_add_ref);
  ("(&F)::add(i32)", f_ref_add_i32);
  ("(&F)::add(i16)", f_ref_add_i16);
  ("(&F)::add(i8)", f_ref_add_i8);
  ("F::add(i32)", f_add_i32);
  ("F::add(i16)", f_add_i16);
  ("F::add(i8)", f_add_i8);
  ("F::div_assign(&F)", f_div_assign_ref);
  ("F::div_assign(F)", f_div_assign_val);
  ("(&F)::div(&F)", f_ref_div_ref);
  ("F::div(F)", f_div_val);
  ("F::sub_assign(&F)", f_sub_assign_ref);
  ("F::sub_assign(F)", f_sub_assign_val);
  ("F::sub_assign(i32)", f_sub_assign_i32);
  ("F::sub_assign(i16)", f_sub_assign_i16);
  ("F::sub_assign(i8)", f_sub_assign_i8);
  ("F::sub(i32)", f_sub_i32);
  ("F::sub(i16)", f_sub_i16);
  ("F::sub(i8)", f_sub_i8);
  ("(&F)::sub(&F)", f_ref_sub_ref);
  ("F::sub(F)", f_sub_val);
  ("(&F)::sub(i32)", f_ref_sub_i32);
  ("(&F)::sub(i16)", f_ref_sub_i16);
  ("(&F)::sub(i8)", f_ref_sub_i8);
  ("F::mul_assign(i32)", f_mul_assign_i32);
  ("F::mul_assign(i16)", f_mul_assign_i16);
  ("F::mul_assign(i8)", f_mul_assign_i8);
  ("F::mul_assign(&F)", f_mul_assign_ref);
  ("F::mul_assign(F)", f_mul_assign_val);
  ("i32::mul(&F)", f_i32_mul_ref);
  ("i16::mul(&F)", f_i16_mul_ref);
  ("i8::mul(&F)", f_i8_mul_ref);
  ("(&F)::mul(i32)", f_ref_mul_i32);
  ("(&F)::mul(i16)", f_ref_mul_i16);
  ("(&F)::mul(i8)", f_ref_mul_i8);
  ("F::mul(i32)", f_mul_i32);
  ("F::mul(i16)", f_mul_i16);
  ("F::mul(i8)", f_mul_i8);
  ("(&F)::mul(&F)", f_ref_mul_ref);
  ("F::mul(F)", f_mul_val);
  ("F::rand", f_rand);
  ("F::unpack", f_unpack);
  ("F::unpacked", f_unpacked);
  ("F::pack", f_pack);
  ("F::pack_normalized", f_pack_normalized);
  ("F::nbytes", f_nbytes);
  ("F::normalize", f_normalize);
  ("F::normalize_self_eq", f_normalize_self_eq);
  ("F::normalize_eq", f_normalize_eq);
  ("Mask::fill", f_Mask_fill);
  ("Mask::filled", f_Mask_filled);
  ("F::fill", f_fill);
  ("F::filled", f_filled);
  ("F::nbits", f_nbits);
  ("F::bit_normalized", f_bit_normalized);
  ("F::bit", f_bit);
  ("F::normalize_bitand", f_normalize_bitand);
  ("F::normalize_self_bitand", f_normalize_self_bitand);
  ("F::normalized_bitand", f_normalized_bitand);
  ("F::normalize_bitor", f_normalize_bitor);
  ("F::normalize_self_bitor", f_normalize_self_bitor);
  ("F::normalized_bitor", f_normalized_bitor);
  ("F::zero", f_zero);
  ("F::one", f_one);
  ("F::m_one", f_m_one);
  ("F::modulus", f_modulus);
  ("F::square", f_square);
  ("F::squared", f_squared);
  ("F::invert", f_invert);
  ("F::inverted", f_inverted);
  ("F::legendre", f_legendre);
  ("F::sqrt", f_sqrt);
  ("F::small_add_assign", f_small_add_assign);
  ("F::small_add", f_small_add);
  ("F::small_sub_assign", f_small_sub_assign);
  ("F::small_sub", f_small_sub);
  ("F::small_mul_assign", f_small_mul_assign);
  ("F::small_mul", f_small_mul)].
