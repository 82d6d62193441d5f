(* Generated by tools/rust2coq.py from src/field/mod_e511_187.rs -- do not edit.
   One definition per item; each statement is preceded by its source line. *)
From Coq Require Import ZArith List String.
From Verif Require Import Lang.
Import ListNotations LangNotations.
Local Open Scope Z_scope.
Local Open Scope string_scope.

(* src/field/mod_e511_187.rs:41 *)
Definition C_VAL : Z := 187.

(* src/field/mod_e511_187.rs:44-44 *)
Definition ZERO : list Z := [0; 0; 0; 0; 0; 0; 0; 0; 0; 0].

(* src/field/mod_e511_187.rs:47-47 *)
Definition ONE : list Z := [1; 0; 0; 0; 0; 0; 0; 0; 0; 0].

(* src/field/mod_e511_187.rs:50-55 *)
Definition M_ONE : list Z := [0x003fffffffffff44; 0x003fffffffffffff; 0x003fffffffffffff; 0x003fffffffffffff; 0x003fffffffffffff; 0x003fffffffffffff; 0x003fffffffffffff; 0x003fffffffffffff; 0x003fffffffffffff; 0x0000000001ffffff].

(* src/field/mod_e511_187.rs:58-63 *)
Definition MODULUS : list Z := [0x003fffffffffff45; 0x003fffffffffffff; 0x003fffffffffffff; 0x003fffffffffffff; 0x003fffffffffffff; 0x003fffffffffffff; 0x003fffffffffffff; 0x003fffffffffffff; 0x003fffffffffffff; 0x0000000001ffffff].

(* src/field/mod_e511_187.rs:66-71 *)
Definition M_HALF : list Z := [0x003fffffffffffa2; 0x003fffffffffffff; 0x003fffffffffffff; 0x003fffffffffffff; 0x003fffffffffffff; 0x003fffffffffffff; 0x003fffffffffffff; 0x003fffffffffffff; 0x003fffffffffffff; 0x0000000000ffffff].

(* src/field/mod_e511_187.rs:73-78 *)
Definition COEFF : list Z := [0x000a2025f19a0805; 0x002cf76afc4066af; 0x0023847e9b2a6526; 0x000cf20ff7d1d139; 0x0015862a42163564; 0x00373fd5b377a6c4; 0x002d9d627c653c0c; 0x000374d6bf19ff2c; 0x00205ac73ca62d36; 0x00000000003b3695].

(* src/field/mod_e511_187.rs:81-82 *)
Definition M511_BASE_X : list Z := [0x5; 0; 0; 0; 0; 0; 0; 0; 0; 0].

(* src/field/mod_e511_187.rs:86-91 *)
Definition M511_BASE_Y : list Z := [0x00230a64af056fa5; 0x002f2950824ea257; 0x000455940abe9f1d; 0x00290f6fd24c22b1; 0x000809422b9429e8; 0x0007b8fe58e26e43; 0x002399ac1cf8f6e0; 0x002eb4d52ed2234c; 0x002d8530803d28fd; 0x0000000000bef702].

(* src/field/mod_e511_187.rs:95-99 *)
Definition M511_ORDER : list Z := [0x000c15bab76baf1b; 0x00010a9aa842fe95; 0x003d13779a2ac125; 0x0031fd59deacabba; 0x00000017b5feff30; 0; 0; 0; 0; 0x0000000000400000].

(* src/field/mod_e511_187.rs:143-145  inherent F::carry_out (one-line method, kept as a macro on its receiver) *)
Definition carry_out (self : expr) : expr := self.[#9] .>> #25.

(* src/field/mod_e511_187.rs:102-110  Debug  F::Debug::fmt *)
Definition f_Debug_fmt : func := mkfunc ["self"; "f"] [
    (*103*) SPushStr "f" "Mod_e511_187: [ ";
    (*103*) SPushHex "f" false false 64 ("self".[#0]);
    (*105*) SFor "i" #1 #10 [
      (*106*) SPushStr "f" ", ";
      (*106*) SPushHex "f" false false 64 ("self".["i"]) ];
    (*109*) SPushStr "f" " ]" ]
    [].

(* src/field/mod_e511_187.rs:114-123  LowerHex  F::LowerHex::fmt *)
Definition f_LowerHex_fmt : func := mkfunc ["self"; "f"] [
    (*115*) "cpy" <- "self";
    (*116*) SCall ["bytes"] "F::packed" [AMut "cpy"];
    (*118*) SFor "i" #0 #64 [
      (*119*) SPushHex "f" false true 8 ("bytes".[EUSub #63 "i"]) ] ]
    [].

(* src/field/mod_e511_187.rs:127-136  UpperHex  F::UpperHex::fmt *)
Definition f_UpperHex_fmt : func := mkfunc ["self"; "f"] [
    (*128*) "cpy" <- "self";
    (*129*) SCall ["bytes"] "F::packed" [AMut "cpy"];
    (*131*) SFor "i" #0 #64 [
      (*132*) SPushHex "f" true true 8 ("bytes".[EUSub #63 "i"]) ] ]
    [].

(* src/field/mod_e511_187.rs:149-153  inherent  F::packed *)
Definition f_packed : func := mkfunc ["self"] [
    (*150*) "out" <- ERep #0 64;
    (*151*) SCall [] "F::pack" [AMut "self"; AMut "out"] ]
    [EVar "out"].

(* src/field/mod_e511_187.rs:155-179  inherent  F::quartic_legendre *)
Definition f_quartic_legendre : func := mkfunc ["self"] [
    (*157*) "sqval" <- "self";
    (*158*) "out" <- "self";
    (*161*) SCall [] "F::square" [AMut "sqval"];
    (*162*) SCall [] "F::square" [AMut "sqval"];
    (*163*) SCall [] "F::square" [AMut "sqval"];
    (*166*) SCall [] "F::square" [AMut "sqval"];
    (*167*) SCall [] "F::mul_assign(&F)" [AMut "out"; AVal "sqval"];
    (*170*) SCall [] "F::square" [AMut "sqval"];
    (*173*) SFor "_" #6 #509 [
      (*174*) SCall [] "F::square" [AMut "sqval"];
      (*175*) SCall [] "F::mul_assign(&F)" [AMut "out"; AVal "sqval"] ] ]
    [EVar "out"].

(* src/field/mod_e511_187.rs:185-190  Neg  F::neg *)
Definition f_neg : func := mkfunc ["self"] [
    (*186*) "out" <- "self";
    (*188*) SCall [] "F::add_assign(&F)" [AMut "out"; AVal (ELit MODULUS)] ]
    [EVar "out"].

(* src/field/mod_e511_187.rs:194-196  AddAssign<i32>  F::add_assign(i32) *)
Definition f_add_assign_i32 : func := mkfunc ["self"; "rhs"] [
    (*195*) SCall [] "F::small_add_assign" [AMut "self"; AVal "rhs"] ]
    [].

(* src/field/mod_e511_187.rs:200-202  AddAssign<i16>  F::add_assign(i16) *)
Definition f_add_assign_i16 : func := mkfunc ["self"; "rhs"] [
    (*201*) SCall [] "F::small_add_assign" [AMut "self"; AVal (ECast I32 "rhs")] ]
    [].

(* src/field/mod_e511_187.rs:206-208  AddAssign<i8>  F::add_assign(i8) *)
Definition f_add_assign_i8 : func := mkfunc ["self"; "rhs"] [
    (*207*) SCall [] "F::small_add_assign" [AMut "self"; AVal (ECast I32 "rhs")] ]
    [].

(* src/field/mod_e511_187.rs:212-266  AddAssign<&F>  F::add_assign(&F) *)
Definition f_add_assign_ref : func := mkfunc ["self"; "rhs"] [
    (*213*) "a0" <- "self".[#0];
    (*214*) "a1" <- "self".[#1];
    (*215*) "a2" <- "self".[#2];
    (*216*) "a3" <- "self".[#3];
    (*217*) "a4" <- "self".[#4];
    (*218*) "a5" <- "self".[#5];
    (*219*) "a6" <- "self".[#6];
    (*220*) "a7" <- "self".[#7];
    (*221*) "a8" <- "self".[#8];
    (*222*) "a9" <- ("self".[#9]) .& #0x00000000001ffffff;
    (*224*) "b0" <- "rhs".[#0];
    (*225*) "b1" <- "rhs".[#1];
    (*226*) "b2" <- "rhs".[#2];
    (*227*) "b3" <- "rhs".[#3];
    (*228*) "b4" <- "rhs".[#4];
    (*229*) "b5" <- "rhs".[#5];
    (*230*) "b6" <- "rhs".[#6];
    (*231*) "b7" <- "rhs".[#7];
    (*232*) "b8" <- "rhs".[#8];
    (*233*) "b9" <- ("rhs".[#9]) .& #0x00000000001ffffff;
    (*235*) "cin" <- (carry_out "self") .+ (carry_out "rhs");
    (*236*) "s0" <- ("a0" .+ "b0") .+ ("cin" .* (EInt C_VAL));
    (*237*) "c0" <- "s0" .>> #54;
    (*238*) "s1" <- ("a1" .+ "b1") .+ "c0";
    (*239*) "c1" <- "s1" .>> #54;
    (*240*) "s2" <- ("a2" .+ "b2") .+ "c1";
    (*241*) "c2" <- "s2" .>> #54;
    (*242*) "s3" <- ("a3" .+ "b3") .+ "c2";
    (*243*) "c3" <- "s3" .>> #54;
    (*244*) "s4" <- ("a4" .+ "b4") .+ "c3";
    (*245*) "c4" <- "s4" .>> #54;
    (*246*) "s5" <- ("a5" .+ "b5") .+ "c4";
    (*247*) "c5" <- "s5" .>> #54;
    (*248*) "s6" <- ("a6" .+ "b6") .+ "c5";
    (*249*) "c6" <- "s6" .>> #54;
    (*250*) "s7" <- ("a7" .+ "b7") .+ "c6";
    (*251*) "c7" <- "s7" .>> #54;
    (*252*) "s8" <- ("a8" .+ "b8") .+ "c7";
    (*253*) "c8" <- "s8" .>> #54;
    (*254*) "s9" <- ("a9" .+ "b9") .+ "c8";
    (*256*) SSet "self" #0 ("s0" .& #0x003fffffffffffff);
    (*257*) SSet "self" #1 ("s1" .& #0x003fffffffffffff);
    (*258*) SSet "self" #2 ("s2" .& #0x003fffffffffffff);
    (*259*) SSet "self" #3 ("s3" .& #0x003fffffffffffff);
    (*260*) SSet "self" #4 ("s4" .& #0x003fffffffffffff);
    (*261*) SSet "self" #5 ("s5" .& #0x003fffffffffffff);
    (*262*) SSet "self" #6 ("s6" .& #0x003fffffffffffff);
    (*263*) SSet "self" #7 ("s7" .& #0x003fffffffffffff);
    (*264*) SSet "self" #8 ("s8" .& #0x003fffffffffffff);
    (*265*) SSet "self" #9 ("s9") ]
    [].

(* src/field/mod_e511_187.rs:270-272  AddAssign<F>  F::add_assign(F) *)
Definition f_add_assign_val : func := mkfunc ["self"; "rhs"] [
    (*271*) SCall [] "F::add_assign(&F)" [AMut "self"; AVal "rhs"] ]
    [].

(* src/field/mod_e511_187.rs:278-280  Add<&F>  i32::add(&F) *)
Definition f_i32_add_ref : func := mkfunc ["self"; "a"] [
    (*279*) SCall ["%1"] "F::small_add" [AVal "a"; AVal "self"] ]
    [EVar "%1"].

(* src/field/mod_e511_187.rs:286-288  Add<&F>  i16::add(&F) *)
Definition f_i16_add_ref : func := mkfunc ["self"; "a"] [
    (*287*) SCall ["%1"] "F::small_add" [AVal "a"; AVal (ECast I32 "self")] ]
    [EVar "%1"].

(* src/field/mod_e511_187.rs:294-296  Add<&F>  i8::add(&F) *)
Definition f_i8_add_ref : func := mkfunc ["self"; "a"] [
    (*295*) SCall ["%1"] "F::small_add" [AVal "a"; AVal (ECast I32 "self")] ]
    [EVar "%1"].

(* src/field/mod_e511_187.rs:302-304  Add<i32>  (&F)::add(i32) *)
Definition f_ref_add_i32 : func := mkfunc ["self"; "a"] [
    (*303*) SCall ["%1"] "F::small_add" [AVal "self"; AVal "a"] ]
    [EVar "%1"].

(* src/field/mod_e511_187.rs:310-312  Add<i16>  (&F)::add(i16) *)
Definition f_ref_add_i16 : func := mkfunc ["self"; "a"] [
    (*311*) SCall ["%1"] "F::small_add" [AVal "self"; AVal (ECast I32 "a")] ]
    [EVar "%1"].

(* src/field/mod_e511_187.rs:318-320  Add<i8>  (&F)::add(i8) *)
Definition f_ref_add_i8 : func := mkfunc ["self"; "a"] [
    (*319*) SCall ["%1"] "F::small_add" [AVal "self"; AVal (ECast I32 "a")] ]
    [EVar "%1"].

(* src/field/mod_e511_187.rs:326-328  Add<i32>  F::add(i32) *)
Definition f_add_i32 : func := mkfunc ["self"; "a"] [
    (*327*) SCall ["%1"] "(&F)::add(i32)" [AVal "self"; AVal "a"] ]
    [EVar "%1"].

(* src/field/mod_e511_187.rs:334-336  Add<i16>  F::add(i16) *)
Definition f_add_i16 : func := mkfunc ["self"; "a"] [
    (*335*) SCall ["%1"] "(&F)::add(i16)" [AVal "self"; AVal "a"] ]
    [EVar "%1"].

(* src/field/mod_e511_187.rs:342-344  Add<i8>  F::add(i8) *)
Definition f_add_i8 : func := mkfunc ["self"; "a"] [
    (*343*) SCall ["%1"] "(&F)::add(i8)" [AVal "self"; AVal "a"] ]
    [EVar "%1"].

(* src/field/mod_e511_187.rs:350-354  Add<&F>  (&F)::add(&F) *)
Definition f_ref_add_ref : func := mkfunc ["self"; "a"] [
    (*351*) "out" <- "self";
    (*352*) SCall [] "F::add_assign(&F)" [AMut "out"; AVal "a"] ]
    [EVar "out"].

(* src/field/mod_e511_187.rs:360-362  Add<F>  F::add(F) *)
Definition f_add_val : func := mkfunc ["self"; "a"] [
    (*361*) SCall ["%1"] "(&F)::add(&F)" [AVal "self"; AVal "a"] ]
    [EVar "%1"].

(* src/field/mod_e511_187.rs:366-368  DivAssign<&F>  F::div_assign(&F) *)
Definition f_div_assign_ref : func := mkfunc ["self"; "rhs"] [
    (*367*) SCall ["%1"] "F::inverted" [AVal "rhs"];
    (*367*) SCall [] "F::mul_assign(&F)" [AMut "self"; AVal "%1"] ]
    [].

(* src/field/mod_e511_187.rs:372-374  DivAssign<F>  F::div_assign(F) *)
Definition f_div_assign_val : func := mkfunc ["self"; "rhs"] [
    (*373*) SCall [] "F::div_assign(&F)" [AMut "self"; AVal "rhs"] ]
    [].

(* src/field/mod_e511_187.rs:380-384  Div<&F>  (&F)::div(&F) *)
Definition f_ref_div_ref : func := mkfunc ["self"; "a"] [
    (*381*) "out" <- "self";
    (*382*) SCall [] "F::div_assign(&F)" [AMut "out"; AVal "a"] ]
    [EVar "out"].

(* src/field/mod_e511_187.rs:390-392  Div<F>  F::div(F) *)
Definition f_div_val : func := mkfunc ["self"; "a"] [
    (*391*) SCall ["%1"] "(&F)::div(&F)" [AVal "self"; AVal "a"] ]
    [EVar "%1"].

(* src/field/mod_e511_187.rs:396-450  SubAssign<&F>  F::sub_assign(&F) *)
Definition f_sub_assign_ref : func := mkfunc ["self"; "rhs"] [
    (*397*) "a0" <- "self".[#0];
    (*398*) "a1" <- "self".[#1];
    (*399*) "a2" <- "self".[#2];
    (*400*) "a3" <- "self".[#3];
    (*401*) "a4" <- "self".[#4];
    (*402*) "a5" <- "self".[#5];
    (*403*) "a6" <- "self".[#6];
    (*404*) "a7" <- "self".[#7];
    (*405*) "a8" <- "self".[#8];
    (*406*) "a9" <- ("self".[#9]) .& #0x0000000001ffffff;
    (*408*) "b0" <- "rhs".[#0];
    (*409*) "b1" <- "rhs".[#1];
    (*410*) "b2" <- "rhs".[#2];
    (*411*) "b3" <- "rhs".[#3];
    (*412*) "b4" <- "rhs".[#4];
    (*413*) "b5" <- "rhs".[#5];
    (*414*) "b6" <- "rhs".[#6];
    (*415*) "b7" <- "rhs".[#7];
    (*416*) "b8" <- "rhs".[#8];
    (*417*) "b9" <- ("rhs".[#9]) .& #0x0000000001ffffff;
    (*419*) "cin" <- (carry_out "self") .+ (carry_out "rhs");
    (*420*) "s0" <- ("a0" .- "b0") .+ ("cin" .* (EInt C_VAL));
    (*421*) "c0" <- "s0" .>> #54;
    (*422*) "s1" <- ("a1" .- "b1") .+ "c0";
    (*423*) "c1" <- "s1" .>> #54;
    (*424*) "s2" <- ("a2" .- "b2") .+ "c1";
    (*425*) "c2" <- "s2" .>> #54;
    (*426*) "s3" <- ("a3" .- "b3") .+ "c2";
    (*427*) "c3" <- "s3" .>> #54;
    (*428*) "s4" <- ("a4" .- "b4") .+ "c3";
    (*429*) "c4" <- "s4" .>> #54;
    (*430*) "s5" <- ("a5" .- "b5") .+ "c4";
    (*431*) "c5" <- "s5" .>> #54;
    (*432*) "s6" <- ("a6" .- "b6") .+ "c5";
    (*433*) "c6" <- "s6" .>> #54;
    (*434*) "s7" <- ("a7" .- "b7") .+ "c6";
    (*435*) "c7" <- "s7" .>> #54;
    (*436*) "s8" <- ("a8" .- "b8") .+ "c7";
    (*437*) "c8" <- "s8" .>> #54;
    (*438*) "s9" <- ("a9" .- "b9") .+ "c8";
    (*440*) SSet "self" #0 ("s0" .& #0x003fffffffffffff);
    (*441*) SSet "self" #1 ("s1" .& #0x003fffffffffffff);
    (*442*) SSet "self" #2 ("s2" .& #0x003fffffffffffff);
    (*443*) SSet "self" #3 ("s3" .& #0x003fffffffffffff);
    (*444*) SSet "self" #4 ("s4" .& #0x003fffffffffffff);
    (*445*) SSet "self" #5 ("s5" .& #0x003fffffffffffff);
    (*446*) SSet "self" #6 ("s6" .& #0x003fffffffffffff);
    (*447*) SSet "self" #7 ("s7" .& #0x003fffffffffffff);
    (*448*) SSet "self" #8 ("s8" .& #0x003fffffffffffff);
    (*449*) SSet "self" #9 ("s9") ]
    [].

(* src/field/mod_e511_187.rs:454-456  SubAssign<F>  F::sub_assign(F) *)
Definition f_sub_assign_val : func := mkfunc ["self"; "rhs"] [
    (*455*) SCall [] "F::sub_assign(&F)" [AMut "self"; AVal "rhs"] ]
    [].

(* src/field/mod_e511_187.rs:460-462  SubAssign<i32>  F::sub_assign(i32) *)
Definition f_sub_assign_i32 : func := mkfunc ["self"; "rhs"] [
    (*461*) SCall [] "F::small_sub_assign" [AMut "self"; AVal "rhs"] ]
    [].

(* src/field/mod_e511_187.rs:466-468  SubAssign<i16>  F::sub_assign(i16) *)
Definition f_sub_assign_i16 : func := mkfunc ["self"; "rhs"] [
    (*467*) SCall [] "F::small_sub_assign" [AMut "self"; AVal (ECast I32 "rhs")] ]
    [].

(* src/field/mod_e511_187.rs:472-474  SubAssign<i8>  F::sub_assign(i8) *)
Definition f_sub_assign_i8 : func := mkfunc ["self"; "rhs"] [
    (*473*) SCall [] "F::small_sub_assign" [AMut "self"; AVal (ECast I32 "rhs")] ]
    [].

(* src/field/mod_e511_187.rs:480-482  Sub<i32>  F::sub(i32) *)
Definition f_sub_i32 : func := mkfunc ["self"; "a"] [
    (*481*) SCall ["%1"] "(&F)::sub(i32)" [AVal "self"; AVal "a"] ]
    [EVar "%1"].

(* src/field/mod_e511_187.rs:488-490  Sub<i16>  F::sub(i16) *)
Definition f_sub_i16 : func := mkfunc ["self"; "a"] [
    (*489*) SCall ["%1"] "(&F)::sub(i16)" [AVal "self"; AVal "a"] ]
    [EVar "%1"].

(* src/field/mod_e511_187.rs:496-498  Sub<i8>  F::sub(i8) *)
Definition f_sub_i8 : func := mkfunc ["self"; "a"] [
    (*497*) SCall ["%1"] "(&F)::sub(i8)" [AVal "self"; AVal "a"] ]
    [EVar "%1"].

(* src/field/mod_e511_187.rs:504-508  Sub<&F>  (&F)::sub(&F) *)
Definition f_ref_sub_ref : func := mkfunc ["self"; "a"] [
    (*505*) "out" <- "self";
    (*506*) SCall [] "F::sub_assign(&F)" [AMut "out"; AVal "a"] ]
    [EVar "out"].

(* src/field/mod_e511_187.rs:514-516  Sub<F>  F::sub(F) *)
Definition f_sub_val : func := mkfunc ["self"; "a"] [
    (*515*) SCall ["%1"] "(&F)::sub(&F)" [AVal "self"; AVal "a"] ]
    [EVar "%1"].

(* src/field/mod_e511_187.rs:522-524  Sub<i32>  (&F)::sub(i32) *)
Definition f_ref_sub_i32 : func := mkfunc ["self"; "a"] [
    (*523*) SCall ["%1"] "F::small_sub" [AVal "self"; AVal "a"] ]
    [EVar "%1"].

(* src/field/mod_e511_187.rs:530-532  Sub<i16>  (&F)::sub(i16) *)
Definition f_ref_sub_i16 : func := mkfunc ["self"; "a"] [
    (*531*) SCall ["%1"] "F::small_sub" [AVal "self"; AVal (ECast I32 "a")] ]
    [EVar "%1"].

(* src/field/mod_e511_187.rs:538-540  Sub<i8>  (&F)::sub(i8) *)
Definition f_ref_sub_i8 : func := mkfunc ["self"; "a"] [
    (*539*) SCall ["%1"] "F::small_sub" [AVal "self"; AVal (ECast I32 "a")] ]
    [EVar "%1"].

(* src/field/mod_e511_187.rs:544-546  MulAssign<i32>  F::mul_assign(i32) *)
Definition f_mul_assign_i32 : func := mkfunc ["self"; "rhs"] [
    (*545*) SCall [] "F::small_mul_assign" [AMut "self"; AVal "rhs"] ]
    [].

(* src/field/mod_e511_187.rs:550-552  MulAssign<i16>  F::mul_assign(i16) *)
Definition f_mul_assign_i16 : func := mkfunc ["self"; "rhs"] [
    (*551*) SCall [] "F::small_mul_assign" [AMut "self"; AVal (ECast I32 "rhs")] ]
    [].

(* src/field/mod_e511_187.rs:556-558  MulAssign<i8>  F::mul_assign(i8) *)
Definition f_mul_assign_i8 : func := mkfunc ["self"; "rhs"] [
    (*557*) SCall [] "F::small_mul_assign" [AMut "self"; AVal (ECast I32 "rhs")] ]
    [].

(* src/field/mod_e511_187.rs:562-1268  MulAssign<&F>  F::mul_assign(&F) *)
Definition f_mul_assign_ref : func := mkfunc ["self"; "rhs"] [
    (*563*) "a0" <- ("self".[#0]) .& #0x07ffffff;
    (*564*) "a1" <- ("self".[#0]) .>> #27;
    (*565*) "a2" <- ("self".[#1]) .& #0x07ffffff;
    (*566*) "a3" <- ("self".[#1]) .>> #27;
    (*567*) "a4" <- ("self".[#2]) .& #0x07ffffff;
    (*568*) "a5" <- ("self".[#2]) .>> #27;
    (*569*) "a6" <- ("self".[#3]) .& #0x07ffffff;
    (*570*) "a7" <- ("self".[#3]) .>> #27;
    (*571*) "a8" <- ("self".[#4]) .& #0x07ffffff;
    (*572*) "a9" <- ("self".[#4]) .>> #27;
    (*573*) "a10" <- ("self".[#5]) .& #0x07ffffff;
    (*574*) "a11" <- ("self".[#5]) .>> #27;
    (*575*) "a12" <- ("self".[#6]) .& #0x07ffffff;
    (*576*) "a13" <- ("self".[#6]) .>> #27;
    (*577*) "a14" <- ("self".[#7]) .& #0x07ffffff;
    (*578*) "a15" <- ("self".[#7]) .>> #27;
    (*579*) "a16" <- ("self".[#8]) .& #0x07ffffff;
    (*580*) "a17" <- ("self".[#8]) .>> #27;
    (*581*) "a18" <- "self".[#9];
    (*583*) "b0" <- ("rhs".[#0]) .& #0x07ffffff;
    (*584*) "b1" <- ("rhs".[#0]) .>> #27;
    (*585*) "b2" <- ("rhs".[#1]) .& #0x07ffffff;
    (*586*) "b3" <- ("rhs".[#1]) .>> #27;
    (*587*) "b4" <- ("rhs".[#2]) .& #0x07ffffff;
    (*588*) "b5" <- ("rhs".[#2]) .>> #27;
    (*589*) "b6" <- ("rhs".[#3]) .& #0x07ffffff;
    (*590*) "b7" <- ("rhs".[#3]) .>> #27;
    (*591*) "b8" <- ("rhs".[#4]) .& #0x07ffffff;
    (*592*) "b9" <- ("rhs".[#4]) .>> #27;
    (*593*) "b10" <- ("rhs".[#5]) .& #0x07ffffff;
    (*594*) "b11" <- ("rhs".[#5]) .>> #27;
    (*595*) "b12" <- ("rhs".[#6]) .& #0x07ffffff;
    (*596*) "b13" <- ("rhs".[#6]) .>> #27;
    (*597*) "b14" <- ("rhs".[#7]) .& #0x07ffffff;
    (*598*) "b15" <- ("rhs".[#7]) .>> #27;
    (*599*) "b16" <- ("rhs".[#8]) .& #0x07ffffff;
    (*600*) "b17" <- ("rhs".[#8]) .>> #27;
    (*601*) "b18" <- "rhs".[#9];
    (*604*) "m_0_0" <- "a0" .* "b0";
    (*605*) "m_0_1" <- "a0" .* "b1";
    (*606*) "m_0_2" <- "a0" .* "b2";
    (*607*) "m_0_3" <- "a0" .* "b3";
    (*608*) "m_0_4" <- "a0" .* "b4";
    (*609*) "m_0_5" <- "a0" .* "b5";
    (*610*) "m_0_6" <- "a0" .* "b6";
    (*611*) "m_0_7" <- "a0" .* "b7";
    (*612*) "m_0_8" <- "a0" .* "b8";
    (*613*) "m_0_9" <- "a0" .* "b9";
    (*614*) "m_0_10" <- "a0" .* "b10";
    (*615*) "m_0_11" <- "a0" .* "b11";
    (*616*) "m_0_12" <- "a0" .* "b12";
    (*617*) "m_0_13" <- "a0" .* "b13";
    (*618*) "m_0_14" <- "a0" .* "b14";
    (*619*) "m_0_15" <- "a0" .* "b15";
    (*620*) "m_0_16" <- "a0" .* "b16";
    (*621*) "m_0_17" <- "a0" .* "b17";
    (*622*) "m_0_18" <- "a0" .* "b18";
    (*623*) "m_1_0" <- "a1" .* "b0";
    (*624*) "m_1_1" <- "a1" .* "b1";
    (*625*) "m_1_2" <- "a1" .* "b2";
    (*626*) "m_1_3" <- "a1" .* "b3";
    (*627*) "m_1_4" <- "a1" .* "b4";
    (*628*) "m_1_5" <- "a1" .* "b5";
    (*629*) "m_1_6" <- "a1" .* "b6";
    (*630*) "m_1_7" <- "a1" .* "b7";
    (*631*) "m_1_8" <- "a1" .* "b8";
    (*632*) "m_1_9" <- "a1" .* "b9";
    (*633*) "m_1_10" <- "a1" .* "b10";
    (*634*) "m_1_11" <- "a1" .* "b11";
    (*635*) "m_1_12" <- "a1" .* "b12";
    (*636*) "m_1_13" <- "a1" .* "b13";
    (*637*) "m_1_14" <- "a1" .* "b14";
    (*638*) "m_1_15" <- "a1" .* "b15";
    (*639*) "m_1_16" <- "a1" .* "b16";
    (*640*) "m_1_17" <- "a1" .* "b17";
    (*641*) "m_1_18" <- "a1" .* "b18";
    (*642*) "m_2_0" <- "a2" .* "b0";
    (*643*) "m_2_1" <- "a2" .* "b1";
    (*644*) "m_2_2" <- "a2" .* "b2";
    (*645*) "m_2_3" <- "a2" .* "b3";
    (*646*) "m_2_4" <- "a2" .* "b4";
    (*647*) "m_2_5" <- "a2" .* "b5";
    (*648*) "m_2_6" <- "a2" .* "b6";
    (*649*) "m_2_7" <- "a2" .* "b7";
    (*650*) "m_2_8" <- "a2" .* "b8";
    (*651*) "m_2_9" <- "a2" .* "b9";
    (*652*) "m_2_10" <- "a2" .* "b10";
    (*653*) "m_2_11" <- "a2" .* "b11";
    (*654*) "m_2_12" <- "a2" .* "b12";
    (*655*) "m_2_13" <- "a2" .* "b13";
    (*656*) "m_2_14" <- "a2" .* "b14";
    (*657*) "m_2_15" <- "a2" .* "b15";
    (*658*) "m_2_16" <- "a2" .* "b16";
    (*659*) "m_2_17" <- "a2" .* "b17";
    (*660*) "m_2_18" <- "a2" .* "b18";
    (*661*) "m_3_0" <- "a3" .* "b0";
    (*662*) "m_3_1" <- "a3" .* "b1";
    (*663*) "m_3_2" <- "a3" .* "b2";
    (*664*) "m_3_3" <- "a3" .* "b3";
    (*665*) "m_3_4" <- "a3" .* "b4";
    (*666*) "m_3_5" <- "a3" .* "b5";
    (*667*) "m_3_6" <- "a3" .* "b6";
    (*668*) "m_3_7" <- "a3" .* "b7";
    (*669*) "m_3_8" <- "a3" .* "b8";
    (*670*) "m_3_9" <- "a3" .* "b9";
    (*671*) "m_3_10" <- "a3" .* "b10";
    (*672*) "m_3_11" <- "a3" .* "b11";
    (*673*) "m_3_12" <- "a3" .* "b12";
    (*674*) "m_3_13" <- "a3" .* "b13";
    (*675*) "m_3_14" <- "a3" .* "b14";
    (*676*) "m_3_15" <- "a3" .* "b15";
    (*677*) "m_3_16" <- "a3" .* "b16";
    (*678*) "m_3_17" <- "a3" .* "b17";
    (*679*) "m_3_18" <- "a3" .* "b18";
    (*680*) "m_4_0" <- "a4" .* "b0";
    (*681*) "m_4_1" <- "a4" .* "b1";
    (*682*) "m_4_2" <- "a4" .* "b2";
    (*683*) "m_4_3" <- "a4" .* "b3";
    (*684*) "m_4_4" <- "a4" .* "b4";
    (*685*) "m_4_5" <- "a4" .* "b5";
    (*686*) "m_4_6" <- "a4" .* "b6";
    (*687*) "m_4_7" <- "a4" .* "b7";
    (*688*) "m_4_8" <- "a4" .* "b8";
    (*689*) "m_4_9" <- "a4" .* "b9";
    (*690*) "m_4_10" <- "a4" .* "b10";
    (*691*) "m_4_11" <- "a4" .* "b11";
    (*692*) "m_4_12" <- "a4" .* "b12";
    (*693*) "m_4_13" <- "a4" .* "b13";
    (*694*) "m_4_14" <- "a4" .* "b14";
    (*695*) "m_4_15" <- "a4" .* "b15";
    (*696*) "m_4_16" <- "a4" .* "b16";
    (*697*) "m_4_17" <- "a4" .* "b17";
    (*698*) "m_4_18" <- "a4" .* "b18";
    (*699*) "m_5_0" <- "a5" .* "b0";
    (*700*) "m_5_1" <- "a5" .* "b1";
    (*701*) "m_5_2" <- "a5" .* "b2";
    (*702*) "m_5_3" <- "a5" .* "b3";
    (*703*) "m_5_4" <- "a5" .* "b4";
    (*704*) "m_5_5" <- "a5" .* "b5";
    (*705*) "m_5_6" <- "a5" .* "b6";
    (*706*) "m_5_7" <- "a5" .* "b7";
    (*707*) "m_5_8" <- "a5" .* "b8";
    (*708*) "m_5_9" <- "a5" .* "b9";
    (*709*) "m_5_10" <- "a5" .* "b10";
    (*710*) "m_5_11" <- "a5" .* "b11";
    (*711*) "m_5_12" <- "a5" .* "b12";
    (*712*) "m_5_13" <- "a5" .* "b13";
    (*713*) "m_5_14" <- "a5" .* "b14";
    (*714*) "m_5_15" <- "a5" .* "b15";
    (*715*) "m_5_16" <- "a5" .* "b16";
    (*716*) "m_5_17" <- "a5" .* "b17";
    (*717*) "m_5_18" <- "a5" .* "b18";
    (*718*) "m_6_0" <- "a6" .* "b0";
    (*719*) "m_6_1" <- "a6" .* "b1";
    (*720*) "m_6_2" <- "a6" .* "b2";
    (*721*) "m_6_3" <- "a6" .* "b3";
    (*722*) "m_6_4" <- "a6" .* "b4";
    (*723*) "m_6_5" <- "a6" .* "b5";
    (*724*) "m_6_6" <- "a6" .* "b6";
    (*725*) "m_6_7" <- "a6" .* "b7";
    (*726*) "m_6_8" <- "a6" .* "b8";
    (*727*) "m_6_9" <- "a6" .* "b9";
    (*728*) "m_6_10" <- "a6" .* "b10";
    (*729*) "m_6_11" <- "a6" .* "b11";
    (*730*) "m_6_12" <- "a6" .* "b12";
    (*731*) "m_6_13" <- "a6" .* "b13";
    (*732*) "m_6_14" <- "a6" .* "b14";
    (*733*) "m_6_15" <- "a6" .* "b15";
    (*734*) "m_6_16" <- "a6" .* "b16";
    (*735*) "m_6_17" <- "a6" .* "b17";
    (*736*) "m_6_18" <- "a6" .* "b18";
    (*737*) "m_7_0" <- "a7" .* "b0";
    (*738*) "m_7_1" <- "a7" .* "b1";
    (*739*) "m_7_2" <- "a7" .* "b2";
    (*740*) "m_7_3" <- "a7" .* "b3";
    (*741*) "m_7_4" <- "a7" .* "b4";
    (*742*) "m_7_5" <- "a7" .* "b5";
    (*743*) "m_7_6" <- "a7" .* "b6";
    (*744*) "m_7_7" <- "a7" .* "b7";
    (*745*) "m_7_8" <- "a7" .* "b8";
    (*746*) "m_7_9" <- "a7" .* "b9";
    (*747*) "m_7_10" <- "a7" .* "b10";
    (*748*) "m_7_11" <- "a7" .* "b11";
    (*749*) "m_7_12" <- "a7" .* "b12";
    (*750*) "m_7_13" <- "a7" .* "b13";
    (*751*) "m_7_14" <- "a7" .* "b14";
    (*752*) "m_7_15" <- "a7" .* "b15";
    (*753*) "m_7_16" <- "a7" .* "b16";
    (*754*) "m_7_17" <- "a7" .* "b17";
    (*755*) "m_7_18" <- "a7" .* "b18";
    (*756*) "m_8_0" <- "a8" .* "b0";
    (*757*) "m_8_1" <- "a8" .* "b1";
    (*758*) "m_8_2" <- "a8" .* "b2";
    (*759*) "m_8_3" <- "a8" .* "b3";
    (*760*) "m_8_4" <- "a8" .* "b4";
    (*761*) "m_8_5" <- "a8" .* "b5";
    (*762*) "m_8_6" <- "a8" .* "b6";
    (*763*) "m_8_7" <- "a8" .* "b7";
    (*764*) "m_8_8" <- "a8" .* "b8";
    (*765*) "m_8_9" <- "a8" .* "b9";
    (*766*) "m_8_10" <- "a8" .* "b10";
    (*767*) "m_8_11" <- "a8" .* "b11";
    (*768*) "m_8_12" <- "a8" .* "b12";
    (*769*) "m_8_13" <- "a8" .* "b13";
    (*770*) "m_8_14" <- "a8" .* "b14";
    (*771*) "m_8_15" <- "a8" .* "b15";
    (*772*) "m_8_16" <- "a8" .* "b16";
    (*773*) "m_8_17" <- "a8" .* "b17";
    (*774*) "m_8_18" <- "a8" .* "b18";
    (*775*) "m_9_0" <- "a9" .* "b0";
    (*776*) "m_9_1" <- "a9" .* "b1";
    (*777*) "m_9_2" <- "a9" .* "b2";
    (*778*) "m_9_3" <- "a9" .* "b3";
    (*779*) "m_9_4" <- "a9" .* "b4";
    (*780*) "m_9_5" <- "a9" .* "b5";
    (*781*) "m_9_6" <- "a9" .* "b6";
    (*782*) "m_9_7" <- "a9" .* "b7";
    (*783*) "m_9_8" <- "a9" .* "b8";
    (*784*) "m_9_9" <- "a9" .* "b9";
    (*785*) "m_9_10" <- "a9" .* "b10";
    (*786*) "m_9_11" <- "a9" .* "b11";
    (*787*) "m_9_12" <- "a9" .* "b12";
    (*788*) "m_9_13" <- "a9" .* "b13";
    (*789*) "m_9_14" <- "a9" .* "b14";
    (*790*) "m_9_15" <- "a9" .* "b15";
    (*791*) "m_9_16" <- "a9" .* "b16";
    (*792*) "m_9_17" <- "a9" .* "b17";
    (*793*) "m_9_18" <- "a9" .* "b18";
    (*794*) "m_10_0" <- "a10" .* "b0";
    (*795*) "m_10_1" <- "a10" .* "b1";
    (*796*) "m_10_2" <- "a10" .* "b2";
    (*797*) "m_10_3" <- "a10" .* "b3";
    (*798*) "m_10_4" <- "a10" .* "b4";
    (*799*) "m_10_5" <- "a10" .* "b5";
    (*800*) "m_10_6" <- "a10" .* "b6";
    (*801*) "m_10_7" <- "a10" .* "b7";
    (*802*) "m_10_8" <- "a10" .* "b8";
    (*803*) "m_10_9" <- "a10" .* "b9";
    (*804*) "m_10_10" <- "a10" .* "b10";
    (*805*) "m_10_11" <- "a10" .* "b11";
    (*806*) "m_10_12" <- "a10" .* "b12";
    (*807*) "m_10_13" <- "a10" .* "b13";
    (*808*) "m_10_14" <- "a10" .* "b14";
    (*809*) "m_10_15" <- "a10" .* "b15";
    (*810*) "m_10_16" <- "a10" .* "b16";
    (*811*) "m_10_17" <- "a10" .* "b17";
    (*812*) "m_10_18" <- "a10" .* "b18";
    (*813*) "m_11_0" <- "a11" .* "b0";
    (*814*) "m_11_1" <- "a11" .* "b1";
    (*815*) "m_11_2" <- "a11" .* "b2";
    (*816*) "m_11_3" <- "a11" .* "b3";
    (*817*) "m_11_4" <- "a11" .* "b4";
    (*818*) "m_11_5" <- "a11" .* "b5";
    (*819*) "m_11_6" <- "a11" .* "b6";
    (*820*) "m_11_7" <- "a11" .* "b7";
    (*821*) "m_11_8" <- "a11" .* "b8";
    (*822*) "m_11_9" <- "a11" .* "b9";
    (*823*) "m_11_10" <- "a11" .* "b10";
    (*824*) "m_11_11" <- "a11" .* "b11";
    (*825*) "m_11_12" <- "a11" .* "b12";
    (*826*) "m_11_13" <- "a11" .* "b13";
    (*827*) "m_11_14" <- "a11" .* "b14";
    (*828*) "m_11_15" <- "a11" .* "b15";
    (*829*) "m_11_16" <- "a11" .* "b16";
    (*830*) "m_11_17" <- "a11" .* "b17";
    (*831*) "m_11_18" <- "a11" .* "b18";
    (*832*) "m_12_0" <- "a12" .* "b0";
    (*833*) "m_12_1" <- "a12" .* "b1";
    (*834*) "m_12_2" <- "a12" .* "b2";
    (*835*) "m_12_3" <- "a12" .* "b3";
    (*836*) "m_12_4" <- "a12" .* "b4";
    (*837*) "m_12_5" <- "a12" .* "b5";
    (*838*) "m_12_6" <- "a12" .* "b6";
    (*839*) "m_12_7" <- "a12" .* "b7";
    (*840*) "m_12_8" <- "a12" .* "b8";
    (*841*) "m_12_9" <- "a12" .* "b9";
    (*842*) "m_12_10" <- "a12" .* "b10";
    (*843*) "m_12_11" <- "a12" .* "b11";
    (*844*) "m_12_12" <- "a12" .* "b12";
    (*845*) "m_12_13" <- "a12" .* "b13";
    (*846*) "m_12_14" <- "a12" .* "b14";
    (*847*) "m_12_15" <- "a12" .* "b15";
    (*848*) "m_12_16" <- "a12" .* "b16";
    (*849*) "m_12_17" <- "a12" .* "b17";
    (*850*) "m_12_18" <- "a12" .* "b18";
    (*851*) "m_13_0" <- "a13" .* "b0";
    (*852*) "m_13_1" <- "a13" .* "b1";
    (*853*) "m_13_2" <- "a13" .* "b2";
    (*854*) "m_13_3" <- "a13" .* "b3";
    (*855*) "m_13_4" <- "a13" .* "b4";
    (*856*) "m_13_5" <- "a13" .* "b5";
    (*857*) "m_13_6" <- "a13" .* "b6";
    (*858*) "m_13_7" <- "a13" .* "b7";
    (*859*) "m_13_8" <- "a13" .* "b8";
    (*860*) "m_13_9" <- "a13" .* "b9";
    (*861*) "m_13_10" <- "a13" .* "b10";
    (*862*) "m_13_11" <- "a13" .* "b11";
    (*863*) "m_13_12" <- "a13" .* "b12";
    (*864*) "m_13_13" <- "a13" .* "b13";
    (*865*) "m_13_14" <- "a13" .* "b14";
    (*866*) "m_13_15" <- "a13" .* "b15";
    (*867*) "m_13_16" <- "a13" .* "b16";
    (*868*) "m_13_17" <- "a13" .* "b17";
    (*869*) "m_13_18" <- "a13" .* "b18";
    (*870*) "m_14_0" <- "a14" .* "b0";
    (*871*) "m_14_1" <- "a14" .* "b1";
    (*872*) "m_14_2" <- "a14" .* "b2";
    (*873*) "m_14_3" <- "a14" .* "b3";
    (*874*) "m_14_4" <- "a14" .* "b4";
    (*875*) "m_14_5" <- "a14" .* "b5";
    (*876*) "m_14_6" <- "a14" .* "b6";
    (*877*) "m_14_7" <- "a14" .* "b7";
    (*878*) "m_14_8" <- "a14" .* "b8";
    (*879*) "m_14_9" <- "a14" .* "b9";
    (*880*) "m_14_10" <- "a14" .* "b10";
    (*881*) "m_14_11" <- "a14" .* "b11";
    (*882*) "m_14_12" <- "a14" .* "b12";
    (*883*) "m_14_13" <- "a14" .* "b13";
    (*884*) "m_14_14" <- "a14" .* "b14";
    (*885*) "m_14_15" <- "a14" .* "b15";
    (*886*) "m_14_16" <- "a14" .* "b16";
    (*887*) "m_14_17" <- "a14" .* "b17";
    (*888*) "m_14_18" <- "a14" .* "b18";
    (*889*) "m_15_0" <- "a15" .* "b0";
    (*890*) "m_15_1" <- "a15" .* "b1";
    (*891*) "m_15_2" <- "a15" .* "b2";
    (*892*) "m_15_3" <- "a15" .* "b3";
    (*893*) "m_15_4" <- "a15" .* "b4";
    (*894*) "m_15_5" <- "a15" .* "b5";
    (*895*) "m_15_6" <- "a15" .* "b6";
    (*896*) "m_15_7" <- "a15" .* "b7";
    (*897*) "m_15_8" <- "a15" .* "b8";
    (*898*) "m_15_9" <- "a15" .* "b9";
    (*899*) "m_15_10" <- "a15" .* "b10";
    (*900*) "m_15_11" <- "a15" .* "b11";
    (*901*) "m_15_12" <- "a15" .* "b12";
    (*902*) "m_15_13" <- "a15" .* "b13";
    (*903*) "m_15_14" <- "a15" .* "b14";
    (*904*) "m_15_15" <- "a15" .* "b15";
    (*905*) "m_15_16" <- "a15" .* "b16";
    (*906*) "m_15_17" <- "a15" .* "b17";
    (*907*) "m_15_18" <- "a15" .* "b18";
    (*908*) "m_16_0" <- "a16" .* "b0";
    (*909*) "m_16_1" <- "a16" .* "b1";
    (*910*) "m_16_2" <- "a16" .* "b2";
    (*911*) "m_16_3" <- "a16" .* "b3";
    (*912*) "m_16_4" <- "a16" .* "b4";
    (*913*) "m_16_5" <- "a16" .* "b5";
    (*914*) "m_16_6" <- "a16" .* "b6";
    (*915*) "m_16_7" <- "a16" .* "b7";
    (*916*) "m_16_8" <- "a16" .* "b8";
    (*917*) "m_16_9" <- "a16" .* "b9";
    (*918*) "m_16_10" <- "a16" .* "b10";
    (*919*) "m_16_11" <- "a16" .* "b11";
    (*920*) "m_16_12" <- "a16" .* "b12";
    (*921*) "m_16_13" <- "a16" .* "b13";
    (*922*) "m_16_14" <- "a16" .* "b14";
    (*923*) "m_16_15" <- "a16" .* "b15";
    (*924*) "m_16_16" <- "a16" .* "b16";
    (*925*) "m_16_17" <- "a16" .* "b17";
    (*926*) "m_16_18" <- "a16" .* "b18";
    (*927*) "m_17_0" <- "a17" .* "b0";
    (*928*) "m_17_1" <- "a17" .* "b1";
    (*929*) "m_17_2" <- "a17" .* "b2";
    (*930*) "m_17_3" <- "a17" .* "b3";
    (*931*) "m_17_4" <- "a17" .* "b4";
    (*932*) "m_17_5" <- "a17" .* "b5";
    (*933*) "m_17_6" <- "a17" .* "b6";
    (*934*) "m_17_7" <- "a17" .* "b7";
    (*935*) "m_17_8" <- "a17" .* "b8";
    (*936*) "m_17_9" <- "a17" .* "b9";
    (*937*) "m_17_10" <- "a17" .* "b10";
    (*938*) "m_17_11" <- "a17" .* "b11";
    (*939*) "m_17_12" <- "a17" .* "b12";
    (*940*) "m_17_13" <- "a17" .* "b13";
    (*941*) "m_17_14" <- "a17" .* "b14";
    (*942*) "m_17_15" <- "a17" .* "b15";
    (*943*) "m_17_16" <- "a17" .* "b16";
    (*944*) "m_17_17" <- "a17" .* "b17";
    (*945*) "m_17_18" <- "a17" .* "b18";
    (*946*) "m_18_0" <- "a18" .* "b0";
    (*947*) "m_18_1" <- "a18" .* "b1";
    (*948*) "m_18_2" <- "a18" .* "b2";
    (*949*) "m_18_3" <- "a18" .* "b3";
    (*950*) "m_18_4" <- "a18" .* "b4";
    (*951*) "m_18_5" <- "a18" .* "b5";
    (*952*) "m_18_6" <- "a18" .* "b6";
    (*953*) "m_18_7" <- "a18" .* "b7";
    (*954*) "m_18_8" <- "a18" .* "b8";
    (*955*) "m_18_9" <- "a18" .* "b9";
    (*956*) "m_18_10" <- "a18" .* "b10";
    (*957*) "m_18_11" <- "a18" .* "b11";
    (*958*) "m_18_12" <- "a18" .* "b12";
    (*959*) "m_18_13" <- "a18" .* "b13";
    (*960*) "m_18_14" <- "a18" .* "b14";
    (*961*) "m_18_15" <- "a18" .* "b15";
    (*962*) "m_18_16" <- "a18" .* "b16";
    (*963*) "m_18_17" <- "a18" .* "b17";
    (*964*) "m_18_18" <- "a18" .* "b18";
    (*967*) "d0" <- ("m_0_0" .+ (("m_0_1" .& #0x07ffffff) .<< #27)) .+ (("m_1_0" .& #0x07ffffff) .<< #27);
    (*969*) "c0" <- "d0" .>> #54;
    (*970*) "d1" <- ((((((((("m_0_1" .>> #27) .+ "m_0_2") .+ (("m_0_3" .& #0x07ffffff) .<< #27)) .+ ("m_1_0" .>> #27)) .+ "m_1_1") .+ (("m_1_2" .& #0x07ffffff) .<< #27)) .+ "m_2_0") .+ (("m_2_1" .& #0x07ffffff) .<< #27)) .+ (("m_3_0" .& #0x07ffffff) .<< #27)) .+ "c0";
    (*974*) "c1" <- "d1" .>> #54;
    (*975*) "d2" <- ((((((((((((((("m_0_3" .>> #27) .+ "m_0_4") .+ (("m_0_5" .& #0x07ffffff) .<< #27)) .+ ("m_1_2" .>> #27)) .+ "m_1_3") .+ (("m_1_4" .& #0x07ffffff) .<< #27)) .+ ("m_2_1" .>> #27)) .+ "m_2_2") .+ (("m_2_3" .& #0x07ffffff) .<< #27)) .+ ("m_3_0" .>> #27)) .+ "m_3_1") .+ (("m_3_2" .& #0x07ffffff) .<< #27)) .+ "m_4_0") .+ (("m_4_1" .& #0x07ffffff) .<< #27)) .+ (("m_5_0" .& #0x07ffffff) .<< #27)) .+ "c1";
    (*981*) "c2" <- "d2" .>> #54;
    (*982*) "d3" <- ((((((((((((((((((((("m_0_5" .>> #27) .+ "m_0_6") .+ (("m_0_7" .& #0x07ffffff) .<< #27)) .+ ("m_1_4" .>> #27)) .+ "m_1_5") .+ (("m_1_6" .& #0x07ffffff) .<< #27)) .+ ("m_2_3" .>> #27)) .+ "m_2_4") .+ (("m_2_5" .& #0x07ffffff) .<< #27)) .+ ("m_3_2" .>> #27)) .+ "m_3_3") .+ (("m_3_4" .& #0x07ffffff) .<< #27)) .+ ("m_4_1" .>> #27)) .+ "m_4_2") .+ (("m_4_3" .& #0x07ffffff) .<< #27)) .+ ("m_5_0" .>> #27)) .+ "m_5_1") .+ (("m_5_2" .& #0x07ffffff) .<< #27)) .+ "m_6_0") .+ (("m_6_1" .& #0x07ffffff) .<< #27)) .+ (("m_7_0" .& #0x07ffffff) .<< #27)) .+ "c2";
    (*990*) "c3" <- "d3" .>> #54;
    (*991*) "d4" <- ((((((((((((((((((((((((((("m_0_7" .>> #27) .+ "m_0_8") .+ (("m_0_9" .& #0x07ffffff) .<< #27)) .+ ("m_1_6" .>> #27)) .+ "m_1_7") .+ (("m_1_8" .& #0x07ffffff) .<< #27)) .+ ("m_2_5" .>> #27)) .+ "m_2_6") .+ (("m_2_7" .& #0x07ffffff) .<< #27)) .+ ("m_3_4" .>> #27)) .+ "m_3_5") .+ (("m_3_6" .& #0x07ffffff) .<< #27)) .+ ("m_4_3" .>> #27)) .+ "m_4_4") .+ (("m_4_5" .& #0x07ffffff) .<< #27)) .+ ("m_5_2" .>> #27)) .+ "m_5_3") .+ (("m_5_4" .& #0x07ffffff) .<< #27)) .+ ("m_6_1" .>> #27)) .+ "m_6_2") .+ (("m_6_3" .& #0x07ffffff) .<< #27)) .+ ("m_7_0" .>> #27)) .+ "m_7_1") .+ (("m_7_2" .& #0x07ffffff) .<< #27)) .+ "m_8_0") .+ (("m_8_1" .& #0x07ffffff) .<< #27)) .+ (("m_9_0" .& #0x07ffffff) .<< #27)) .+ "c3";
    (*1001*) "c4" <- "d4" .>> #54;
    (*1002*) "d5" <- ((((((((((((((((((((((((((((((((("m_0_9" .>> #27) .+ "m_0_10") .+ (("m_0_11" .& #0x07ffffff) .<< #27)) .+ ("m_1_8" .>> #27)) .+ "m_1_9") .+ (("m_1_10" .& #0x07ffffff) .<< #27)) .+ ("m_2_7" .>> #27)) .+ "m_2_8") .+ (("m_2_9" .& #0x07ffffff) .<< #27)) .+ ("m_3_6" .>> #27)) .+ "m_3_7") .+ (("m_3_8" .& #0x07ffffff) .<< #27)) .+ ("m_4_5" .>> #27)) .+ "m_4_6") .+ (("m_4_7" .& #0x07ffffff) .<< #27)) .+ ("m_5_4" .>> #27)) .+ "m_5_5") .+ (("m_5_6" .& #0x07ffffff) .<< #27)) .+ ("m_6_3" .>> #27)) .+ "m_6_4") .+ (("m_6_5" .& #0x07ffffff) .<< #27)) .+ ("m_7_2" .>> #27)) .+ "m_7_3") .+ (("m_7_4" .& #0x07ffffff) .<< #27)) .+ ("m_8_1" .>> #27)) .+ "m_8_2") .+ (("m_8_3" .& #0x07ffffff) .<< #27)) .+ ("m_9_0" .>> #27)) .+ "m_9_1") .+ (("m_9_2" .& #0x07ffffff) .<< #27)) .+ "m_10_0") .+ (("m_10_1" .& #0x07ffffff) .<< #27)) .+ (("m_11_0" .& #0x07ffffff) .<< #27)) .+ "c4";
    (*1014*) "c5" <- "d5" .>> #54;
    (*1015*) "d6" <- ((((((((((((((((((((((((((((((((((((((("m_0_11" .>> #27) .+ "m_0_12") .+ (("m_0_13" .& #0x07ffffff) .<< #27)) .+ ("m_1_10" .>> #27)) .+ "m_1_11") .+ (("m_1_12" .& #0x07ffffff) .<< #27)) .+ ("m_2_9" .>> #27)) .+ "m_2_10") .+ (("m_2_11" .& #0x07ffffff) .<< #27)) .+ ("m_3_8" .>> #27)) .+ "m_3_9") .+ (("m_3_10" .& #0x07ffffff) .<< #27)) .+ ("m_4_7" .>> #27)) .+ "m_4_8") .+ (("m_4_9" .& #0x07ffffff) .<< #27)) .+ ("m_5_6" .>> #27)) .+ "m_5_7") .+ (("m_5_8" .& #0x07ffffff) .<< #27)) .+ ("m_6_5" .>> #27)) .+ "m_6_6") .+ (("m_6_7" .& #0x07ffffff) .<< #27)) .+ ("m_7_4" .>> #27)) .+ "m_7_5") .+ (("m_7_6" .& #0x07ffffff) .<< #27)) .+ ("m_8_3" .>> #27)) .+ "m_8_4") .+ (("m_8_5" .& #0x07ffffff) .<< #27)) .+ ("m_9_2" .>> #27)) .+ "m_9_3") .+ (("m_9_4" .& #0x07ffffff) .<< #27)) .+ ("m_10_1" .>> #27)) .+ "m_10_2") .+ (("m_10_3" .& #0x07ffffff) .<< #27)) .+ ("m_11_0" .>> #27)) .+ "m_11_1") .+ (("m_11_2" .& #0x07ffffff) .<< #27)) .+ "m_12_0") .+ (("m_12_1" .& #0x07ffffff) .<< #27)) .+ (("m_13_0" .& #0x07ffffff) .<< #27)) .+ "c5";
    (*1029*) "c6" <- "d6" .>> #54;
    (*1030*) "d7" <- ((((((((((((((((((((((((((((((((((((((((((((("m_0_13" .>> #27) .+ "m_0_14") .+ (("m_0_15" .& #0x07ffffff) .<< #27)) .+ ("m_1_12" .>> #27)) .+ "m_1_13") .+ (("m_1_14" .& #0x07ffffff) .<< #27)) .+ ("m_2_11" .>> #27)) .+ "m_2_12") .+ (("m_2_13" .& #0x07ffffff) .<< #27)) .+ ("m_3_10" .>> #27)) .+ "m_3_11") .+ (("m_3_12" .& #0x07ffffff) .<< #27)) .+ ("m_4_9" .>> #27)) .+ "m_4_10") .+ (("m_4_11" .& #0x07ffffff) .<< #27)) .+ ("m_5_8" .>> #27)) .+ "m_5_9") .+ (("m_5_10" .& #0x07ffffff) .<< #27)) .+ ("m_6_7" .>> #27)) .+ "m_6_8") .+ (("m_6_9" .& #0x07ffffff) .<< #27)) .+ ("m_7_6" .>> #27)) .+ "m_7_7") .+ (("m_7_8" .& #0x07ffffff) .<< #27)) .+ ("m_8_5" .>> #27)) .+ "m_8_6") .+ (("m_8_7" .& #0x07ffffff) .<< #27)) .+ ("m_9_4" .>> #27)) .+ "m_9_5") .+ (("m_9_6" .& #0x07ffffff) .<< #27)) .+ ("m_10_3" .>> #27)) .+ "m_10_4") .+ (("m_10_5" .& #0x07ffffff) .<< #27)) .+ ("m_11_2" .>> #27)) .+ "m_11_3") .+ (("m_11_4" .& #0x07ffffff) .<< #27)) .+ ("m_12_1" .>> #27)) .+ "m_12_2") .+ (("m_12_3" .& #0x07ffffff) .<< #27)) .+ ("m_13_0" .>> #27)) .+ "m_13_1") .+ (("m_13_2" .& #0x07ffffff) .<< #27)) .+ "m_14_0") .+ (("m_14_1" .& #0x07ffffff) .<< #27)) .+ (("m_15_0" .& #0x07ffffff) .<< #27)) .+ "c6";
    (*1046*) "c7" <- "d7" .>> #54;
    (*1047*) "d8" <- ((((((((((((((((((((((((((((((((((((((((((((((((((("m_0_15" .>> #27) .+ "m_0_16") .+ (("m_0_17" .& #0x07ffffff) .<< #27)) .+ ("m_1_14" .>> #27)) .+ "m_1_15") .+ (("m_1_16" .& #0x07ffffff) .<< #27)) .+ ("m_2_13" .>> #27)) .+ "m_2_14") .+ (("m_2_15" .& #0x07ffffff) .<< #27)) .+ ("m_3_12" .>> #27)) .+ "m_3_13") .+ (("m_3_14" .& #0x07ffffff) .<< #27)) .+ ("m_4_11" .>> #27)) .+ "m_4_12") .+ (("m_4_13" .& #0x07ffffff) .<< #27)) .+ ("m_5_10" .>> #27)) .+ "m_5_11") .+ (("m_5_12" .& #0x07ffffff) .<< #27)) .+ ("m_6_9" .>> #27)) .+ "m_6_10") .+ (("m_6_11" .& #0x07ffffff) .<< #27)) .+ ("m_7_8" .>> #27)) .+ "m_7_9") .+ (("m_7_10" .& #0x07ffffff) .<< #27)) .+ ("m_8_7" .>> #27)) .+ "m_8_8") .+ (("m_8_9" .& #0x07ffffff) .<< #27)) .+ ("m_9_6" .>> #27)) .+ "m_9_7") .+ (("m_9_8" .& #0x07ffffff) .<< #27)) .+ ("m_10_5" .>> #27)) .+ "m_10_6") .+ (("m_10_7" .& #0x07ffffff) .<< #27)) .+ ("m_11_4" .>> #27)) .+ "m_11_5") .+ (("m_11_6" .& #0x07ffffff) .<< #27)) .+ ("m_12_3" .>> #27)) .+ "m_12_4") .+ (("m_12_5" .& #0x07ffffff) .<< #27)) .+ ("m_13_2" .>> #27)) .+ "m_13_3") .+ (("m_13_4" .& #0x07ffffff) .<< #27)) .+ ("m_14_1" .>> #27)) .+ "m_14_2") .+ (("m_14_3" .& #0x07ffffff) .<< #27)) .+ ("m_15_0" .>> #27)) .+ "m_15_1") .+ (("m_15_2" .& #0x07ffffff) .<< #27)) .+ "m_16_0") .+ (("m_16_1" .& #0x07ffffff) .<< #27)) .+ (("m_17_0" .& #0x07ffffff) .<< #27)) .+ "c7";
    (*1065*) "c8" <- "d8" .>> #54;
    (*1066*) "d9" <- ((((((((((((((((((((((((((((((((((((((((((((((((((((((("m_0_17" .>> #27) .+ "m_0_18") .+ ("m_1_16" .>> #27)) .+ "m_1_17") .+ (("m_1_18" .& #0x07ffffff) .<< #27)) .+ ("m_2_15" .>> #27)) .+ "m_2_16") .+ (("m_2_17" .& #0x07ffffff) .<< #27)) .+ ("m_3_14" .>> #27)) .+ "m_3_15") .+ (("m_3_16" .& #0x07ffffff) .<< #27)) .+ ("m_4_13" .>> #27)) .+ "m_4_14") .+ (("m_4_15" .& #0x07ffffff) .<< #27)) .+ ("m_5_12" .>> #27)) .+ "m_5_13") .+ (("m_5_14" .& #0x07ffffff) .<< #27)) .+ ("m_6_11" .>> #27)) .+ "m_6_12") .+ (("m_6_13" .& #0x07ffffff) .<< #27)) .+ ("m_7_10" .>> #27)) .+ "m_7_11") .+ (("m_7_12" .& #0x07ffffff) .<< #27)) .+ ("m_8_9" .>> #27)) .+ "m_8_10") .+ (("m_8_11" .& #0x07ffffff) .<< #27)) .+ ("m_9_8" .>> #27)) .+ "m_9_9") .+ (("m_9_10" .& #0x07ffffff) .<< #27)) .+ ("m_10_7" .>> #27)) .+ "m_10_8") .+ (("m_10_9" .& #0x07ffffff) .<< #27)) .+ ("m_11_6" .>> #27)) .+ "m_11_7") .+ (("m_11_8" .& #0x07ffffff) .<< #27)) .+ ("m_12_5" .>> #27)) .+ "m_12_6") .+ (("m_12_7" .& #0x07ffffff) .<< #27)) .+ ("m_13_4" .>> #27)) .+ "m_13_5") .+ (("m_13_6" .& #0x07ffffff) .<< #27)) .+ ("m_14_3" .>> #27)) .+ "m_14_4") .+ (("m_14_5" .& #0x07ffffff) .<< #27)) .+ ("m_15_2" .>> #27)) .+ "m_15_3") .+ (("m_15_4" .& #0x07ffffff) .<< #27)) .+ ("m_16_1" .>> #27)) .+ "m_16_2") .+ (("m_16_3" .& #0x07ffffff) .<< #27)) .+ ("m_17_0" .>> #27)) .+ "m_17_1") .+ (("m_17_2" .& #0x07ffffff) .<< #27)) .+ "m_18_0") .+ (("m_18_1" .& #0x07ffffff) .<< #27)) .+ "c8";
    (*1085*) "c9" <- "d9" .>> #54;
    (*1086*) "d10" <- ((((((((((((((((((((((((((((((((((((((((((((((((((("m_1_18" .>> #27) .+ ("m_2_17" .>> #27)) .+ "m_2_18") .+ ("m_3_16" .>> #27)) .+ "m_3_17") .+ (("m_3_18" .& #0x07ffffff) .<< #27)) .+ ("m_4_15" .>> #27)) .+ "m_4_16") .+ (("m_4_17" .& #0x07ffffff) .<< #27)) .+ ("m_5_14" .>> #27)) .+ "m_5_15") .+ (("m_5_16" .& #0x07ffffff) .<< #27)) .+ ("m_6_13" .>> #27)) .+ "m_6_14") .+ (("m_6_15" .& #0x07ffffff) .<< #27)) .+ ("m_7_12" .>> #27)) .+ "m_7_13") .+ (("m_7_14" .& #0x07ffffff) .<< #27)) .+ ("m_8_11" .>> #27)) .+ "m_8_12") .+ (("m_8_13" .& #0x07ffffff) .<< #27)) .+ ("m_9_10" .>> #27)) .+ "m_9_11") .+ (("m_9_12" .& #0x07ffffff) .<< #27)) .+ ("m_10_9" .>> #27)) .+ "m_10_10") .+ (("m_10_11" .& #0x07ffffff) .<< #27)) .+ ("m_11_8" .>> #27)) .+ "m_11_9") .+ (("m_11_10" .& #0x07ffffff) .<< #27)) .+ ("m_12_7" .>> #27)) .+ "m_12_8") .+ (("m_12_9" .& #0x07ffffff) .<< #27)) .+ ("m_13_6" .>> #27)) .+ "m_13_7") .+ (("m_13_8" .& #0x07ffffff) .<< #27)) .+ ("m_14_5" .>> #27)) .+ "m_14_6") .+ (("m_14_7" .& #0x07ffffff) .<< #27)) .+ ("m_15_4" .>> #27)) .+ "m_15_5") .+ (("m_15_6" .& #0x07ffffff) .<< #27)) .+ ("m_16_3" .>> #27)) .+ "m_16_4") .+ (("m_16_5" .& #0x07ffffff) .<< #27)) .+ ("m_17_2" .>> #27)) .+ "m_17_3") .+ (("m_17_4" .& #0x07ffffff) .<< #27)) .+ ("m_18_1" .>> #27)) .+ "m_18_2") .+ (("m_18_3" .& #0x07ffffff) .<< #27)) .+ "c9";
    (*1104*) "c10" <- "d10" .>> #54;
    (*1105*) "d11" <- ((((((((((((((((((((((((((((((((((((((((((((("m_3_18" .>> #27) .+ ("m_4_17" .>> #27)) .+ "m_4_18") .+ ("m_5_16" .>> #27)) .+ "m_5_17") .+ (("m_5_18" .& #0x07ffffff) .<< #27)) .+ ("m_6_15" .>> #27)) .+ "m_6_16") .+ (("m_6_17" .& #0x07ffffff) .<< #27)) .+ ("m_7_14" .>> #27)) .+ "m_7_15") .+ (("m_7_16" .& #0x07ffffff) .<< #27)) .+ ("m_8_13" .>> #27)) .+ "m_8_14") .+ (("m_8_15" .& #0x07ffffff) .<< #27)) .+ ("m_9_12" .>> #27)) .+ "m_9_13") .+ (("m_9_14" .& #0x07ffffff) .<< #27)) .+ ("m_10_11" .>> #27)) .+ "m_10_12") .+ (("m_10_13" .& #0x07ffffff) .<< #27)) .+ ("m_11_10" .>> #27)) .+ "m_11_11") .+ (("m_11_12" .& #0x07ffffff) .<< #27)) .+ ("m_12_9" .>> #27)) .+ "m_12_10") .+ (("m_12_11" .& #0x07ffffff) .<< #27)) .+ ("m_13_8" .>> #27)) .+ "m_13_9") .+ (("m_13_10" .& #0x07ffffff) .<< #27)) .+ ("m_14_7" .>> #27)) .+ "m_14_8") .+ (("m_14_9" .& #0x07ffffff) .<< #27)) .+ ("m_15_6" .>> #27)) .+ "m_15_7") .+ (("m_15_8" .& #0x07ffffff) .<< #27)) .+ ("m_16_5" .>> #27)) .+ "m_16_6") .+ (("m_16_7" .& #0x07ffffff) .<< #27)) .+ ("m_17_4" .>> #27)) .+ "m_17_5") .+ (("m_17_6" .& #0x07ffffff) .<< #27)) .+ ("m_18_3" .>> #27)) .+ "m_18_4") .+ (("m_18_5" .& #0x07ffffff) .<< #27)) .+ "c10";
    (*1121*) "c11" <- "d11" .>> #54;
    (*1122*) "d12" <- ((((((((((((((((((((((((((((((((((((((("m_5_18" .>> #27) .+ ("m_6_17" .>> #27)) .+ "m_6_18") .+ ("m_7_16" .>> #27)) .+ "m_7_17") .+ (("m_7_18" .& #0x07ffffff) .<< #27)) .+ ("m_8_15" .>> #27)) .+ "m_8_16") .+ (("m_8_17" .& #0x07ffffff) .<< #27)) .+ ("m_9_14" .>> #27)) .+ "m_9_15") .+ (("m_9_16" .& #0x07ffffff) .<< #27)) .+ ("m_10_13" .>> #27)) .+ "m_10_14") .+ (("m_10_15" .& #0x07ffffff) .<< #27)) .+ ("m_11_12" .>> #27)) .+ "m_11_13") .+ (("m_11_14" .& #0x07ffffff) .<< #27)) .+ ("m_12_11" .>> #27)) .+ "m_12_12") .+ (("m_12_13" .& #0x07ffffff) .<< #27)) .+ ("m_13_10" .>> #27)) .+ "m_13_11") .+ (("m_13_12" .& #0x07ffffff) .<< #27)) .+ ("m_14_9" .>> #27)) .+ "m_14_10") .+ (("m_14_11" .& #0x07ffffff) .<< #27)) .+ ("m_15_8" .>> #27)) .+ "m_15_9") .+ (("m_15_10" .& #0x07ffffff) .<< #27)) .+ ("m_16_7" .>> #27)) .+ "m_16_8") .+ (("m_16_9" .& #0x07ffffff) .<< #27)) .+ ("m_17_6" .>> #27)) .+ "m_17_7") .+ (("m_17_8" .& #0x07ffffff) .<< #27)) .+ ("m_18_5" .>> #27)) .+ "m_18_6") .+ (("m_18_7" .& #0x07ffffff) .<< #27)) .+ "c11";
    (*1136*) "c12" <- "d12" .>> #54;
    (*1137*) "d13" <- ((((((((((((((((((((((((((((((((("m_7_18" .>> #27) .+ ("m_8_17" .>> #27)) .+ "m_8_18") .+ ("m_9_16" .>> #27)) .+ "m_9_17") .+ (("m_9_18" .& #0x07ffffff) .<< #27)) .+ ("m_10_15" .>> #27)) .+ "m_10_16") .+ (("m_10_17" .& #0x07ffffff) .<< #27)) .+ ("m_11_14" .>> #27)) .+ "m_11_15") .+ (("m_11_16" .& #0x07ffffff) .<< #27)) .+ ("m_12_13" .>> #27)) .+ "m_12_14") .+ (("m_12_15" .& #0x07ffffff) .<< #27)) .+ ("m_13_12" .>> #27)) .+ "m_13_13") .+ (("m_13_14" .& #0x07ffffff) .<< #27)) .+ ("m_14_11" .>> #27)) .+ "m_14_12") .+ (("m_14_13" .& #0x07ffffff) .<< #27)) .+ ("m_15_10" .>> #27)) .+ "m_15_11") .+ (("m_15_12" .& #0x07ffffff) .<< #27)) .+ ("m_16_9" .>> #27)) .+ "m_16_10") .+ (("m_16_11" .& #0x07ffffff) .<< #27)) .+ ("m_17_8" .>> #27)) .+ "m_17_9") .+ (("m_17_10" .& #0x07ffffff) .<< #27)) .+ ("m_18_7" .>> #27)) .+ "m_18_8") .+ (("m_18_9" .& #0x07ffffff) .<< #27)) .+ "c12";
    (*1149*) "c13" <- "d13" .>> #54;
    (*1150*) "d14" <- ((((((((((((((((((((((((((("m_9_18" .>> #27) .+ ("m_10_17" .>> #27)) .+ "m_10_18") .+ ("m_11_16" .>> #27)) .+ "m_11_17") .+ (("m_11_18" .& #0x07ffffff) .<< #27)) .+ ("m_12_15" .>> #27)) .+ "m_12_16") .+ (("m_12_17" .& #0x07ffffff) .<< #27)) .+ ("m_13_14" .>> #27)) .+ "m_13_15") .+ (("m_13_16" .& #0x07ffffff) .<< #27)) .+ ("m_14_13" .>> #27)) .+ "m_14_14") .+ (("m_14_15" .& #0x07ffffff) .<< #27)) .+ ("m_15_12" .>> #27)) .+ "m_15_13") .+ (("m_15_14" .& #0x07ffffff) .<< #27)) .+ ("m_16_11" .>> #27)) .+ "m_16_12") .+ (("m_16_13" .& #0x07ffffff) .<< #27)) .+ ("m_17_10" .>> #27)) .+ "m_17_11") .+ (("m_17_12" .& #0x07ffffff) .<< #27)) .+ ("m_18_9" .>> #27)) .+ "m_18_10") .+ (("m_18_11" .& #0x07ffffff) .<< #27)) .+ "c13";
    (*1161*) "c14" <- "d14" .>> #54;
    (*1162*) "d15" <- ((((((((((((((((((((("m_11_18" .>> #27) .+ ("m_12_17" .>> #27)) .+ "m_12_18") .+ ("m_13_16" .>> #27)) .+ "m_13_17") .+ (("m_13_18" .& #0x07ffffff) .<< #27)) .+ ("m_14_15" .>> #27)) .+ "m_14_16") .+ (("m_14_17" .& #0x07ffffff) .<< #27)) .+ ("m_15_14" .>> #27)) .+ "m_15_15") .+ (("m_15_16" .& #0x07ffffff) .<< #27)) .+ ("m_16_13" .>> #27)) .+ "m_16_14") .+ (("m_16_15" .& #0x07ffffff) .<< #27)) .+ ("m_17_12" .>> #27)) .+ "m_17_13") .+ (("m_17_14" .& #0x07ffffff) .<< #27)) .+ ("m_18_11" .>> #27)) .+ "m_18_12") .+ (("m_18_13" .& #0x07ffffff) .<< #27)) .+ "c14";
    (*1171*) "c15" <- "d15" .>> #54;
    (*1172*) "d16" <- ((((((((((((((("m_13_18" .>> #27) .+ ("m_14_17" .>> #27)) .+ "m_14_18") .+ ("m_15_16" .>> #27)) .+ "m_15_17") .+ (("m_15_18" .& #0x07ffffff) .<< #27)) .+ ("m_16_15" .>> #27)) .+ "m_16_16") .+ (("m_16_17" .& #0x07ffffff) .<< #27)) .+ ("m_17_14" .>> #27)) .+ "m_17_15") .+ (("m_17_16" .& #0x07ffffff) .<< #27)) .+ ("m_18_13" .>> #27)) .+ "m_18_14") .+ (("m_18_15" .& #0x07ffffff) .<< #27)) .+ "c15";
    (*1179*) "c16" <- "d16" .>> #54;
    (*1180*) "d17" <- ((((((((("m_15_18" .>> #27) .+ ("m_16_17" .>> #27)) .+ "m_16_18") .+ ("m_17_16" .>> #27)) .+ "m_17_17") .+ (("m_17_18" .& #0x07ffffff) .<< #27)) .+ ("m_18_15" .>> #27)) .+ "m_18_16") .+ (("m_18_17" .& #0x07ffffff) .<< #27)) .+ "c16";
    (*1185*) "c17" <- "d17" .>> #54;
    (*1186*) "d18" <- ((("m_17_18" .>> #27) .+ ("m_18_17" .>> #27)) .+ "m_18_18") .+ "c17";
    (*1192*) "l0_0" <- "d0" .& #0x003fffffffffffff;
    (*1193*) "l1_0" <- "d1" .& #0x003fffffffffffff;
    (*1194*) "l2_0" <- "d2" .& #0x003fffffffffffff;
    (*1195*) "l3_0" <- "d3" .& #0x003fffffffffffff;
    (*1196*) "l4_0" <- "d4" .& #0x003fffffffffffff;
    (*1197*) "l5_0" <- "d5" .& #0x003fffffffffffff;
    (*1198*) "l6_0" <- "d6" .& #0x003fffffffffffff;
    (*1199*) "l7_0" <- "d7" .& #0x003fffffffffffff;
    (*1200*) "l8_0" <- "d8" .& #0x003fffffffffffff;
    (*1201*) "l9_0" <- "d9" .& #0x0000000001ffffff;
    (*1204*) "h0_0" <- (("d9" .& #0x003fffffffffffff) .>> #25) .| (("d10" .& #0x0000000001ffffff) .<< #29);
    (*1206*) "h1_0" <- (("d10" .& #0x003fffffffffffff) .>> #25) .| (("d11" .& #0x0000000001ffffff) .<< #29);
    (*1208*) "h2_0" <- (("d11" .& #0x003fffffffffffff) .>> #25) .| (("d12" .& #0x0000000001ffffff) .<< #29);
    (*1210*) "h3_0" <- (("d12" .& #0x003fffffffffffff) .>> #25) .| (("d13" .& #0x0000000001ffffff) .<< #29);
    (*1212*) "h4_0" <- (("d13" .& #0x003fffffffffffff) .>> #25) .| (("d14" .& #0x0000000001ffffff) .<< #29);
    (*1214*) "h5_0" <- (("d14" .& #0x003fffffffffffff) .>> #25) .| (("d15" .& #0x0000000001ffffff) .<< #29);
    (*1216*) "h6_0" <- (("d15" .& #0x003fffffffffffff) .>> #25) .| (("d16" .& #0x0000000001ffffff) .<< #29);
    (*1218*) "h7_0" <- (("d16" .& #0x003fffffffffffff) .>> #25) .| (("d17" .& #0x0000000001ffffff) .<< #29);
    (*1220*) "h8_0" <- (("d17" .& #0x003fffffffffffff) .>> #25) .| (("d18" .& #0x0000000001ffffff) .<< #29);
    (*1222*) "h9_0" <- "d18" .>> #25;
    (*1225*) "hc0_0" <- "h0_0" .* (EInt C_VAL);
    (*1226*) "hc1_0" <- "h1_0" .* (EInt C_VAL);
    (*1227*) "hc2_0" <- "h2_0" .* (EInt C_VAL);
    (*1228*) "hc3_0" <- "h3_0" .* (EInt C_VAL);
    (*1229*) "hc4_0" <- "h4_0" .* (EInt C_VAL);
    (*1230*) "hc5_0" <- "h5_0" .* (EInt C_VAL);
    (*1231*) "hc6_0" <- "h6_0" .* (EInt C_VAL);
    (*1232*) "hc7_0" <- "h7_0" .* (EInt C_VAL);
    (*1233*) "hc8_0" <- "h8_0" .* (EInt C_VAL);
    (*1234*) "hc9_0" <- "h9_0" .* (EInt C_VAL);
    (*1237*) "kin_0" <- "hc9_0" .>> #25;
    (*1238*) "s0_0" <- ("l0_0" .+ "hc0_0") .+ ("kin_0" .* (EInt C_VAL));
    (*1239*) "k0_0" <- "s0_0" .>> #54;
    (*1240*) "s1_0" <- ("l1_0" .+ "hc1_0") .+ "k0_0";
    (*1241*) "k1_0" <- "s1_0" .>> #54;
    (*1242*) "s2_0" <- ("l2_0" .+ "hc2_0") .+ "k1_0";
    (*1243*) "k2_0" <- "s2_0" .>> #54;
    (*1244*) "s3_0" <- ("l3_0" .+ "hc3_0") .+ "k2_0";
    (*1245*) "k3_0" <- "s3_0" .>> #54;
    (*1246*) "s4_0" <- ("l4_0" .+ "hc4_0") .+ "k3_0";
    (*1247*) "k4_0" <- "s4_0" .>> #54;
    (*1248*) "s5_0" <- ("l5_0" .+ "hc5_0") .+ "k4_0";
    (*1249*) "k5_0" <- "s5_0" .>> #54;
    (*1250*) "s6_0" <- ("l6_0" .+ "hc6_0") .+ "k5_0";
    (*1251*) "k6_0" <- "s6_0" .>> #54;
    (*1252*) "s7_0" <- ("l7_0" .+ "hc7_0") .+ "k6_0";
    (*1253*) "k7_0" <- "s7_0" .>> #54;
    (*1254*) "s8_0" <- ("l8_0" .+ "hc8_0") .+ "k7_0";
    (*1255*) "k8_0" <- "s8_0" .>> #54;
    (*1256*) "s9_0" <- ("l9_0" .+ ("hc9_0" .& #0x0000000001ffffff)) .+ "k8_0";
    (*1258*) SSet "self" #0 ("s0_0" .& #0x003fffffffffffff);
    (*1259*) SSet "self" #1 ("s1_0" .& #0x003fffffffffffff);
    (*1260*) SSet "self" #2 ("s2_0" .& #0x003fffffffffffff);
    (*1261*) SSet "self" #3 ("s3_0" .& #0x003fffffffffffff);
    (*1262*) SSet "self" #4 ("s4_0" .& #0x003fffffffffffff);
    (*1263*) SSet "self" #5 ("s5_0" .& #0x003fffffffffffff);
    (*1264*) SSet "self" #6 ("s6_0" .& #0x003fffffffffffff);
    (*1265*) SSet "self" #7 ("s7_0" .& #0x003fffffffffffff);
    (*1266*) SSet "self" #8 ("s8_0" .& #0x003fffffffffffff);
    (*1267*) SSet "self" #9 ("s9_0") ]
    [].

(* src/field/mod_e511_187.rs:1272-1274  MulAssign<F>  F::mul_assign(F) *)
Definition f_mul_assign_val : func := mkfunc ["self"; "rhs"] [
    (*1273*) SCall [] "F::mul_assign(&F)" [AMut "self"; AVal "rhs"] ]
    [].

(* src/field/mod_e511_187.rs:1280-1282  Mul<&F>  i32::mul(&F) *)
Definition f_i32_mul_ref : func := mkfunc ["self"; "a"] [
    (*1281*) SCall ["%1"] "F::small_mul" [AVal "a"; AVal "self"] ]
    [EVar "%1"].

(* src/field/mod_e511_187.rs:1288-1290  Mul<&F>  i16::mul(&F) *)
Definition f_i16_mul_ref : func := mkfunc ["self"; "a"] [
    (*1289*) SCall ["%1"] "F::small_mul" [AVal "a"; AVal (ECast I32 "self")] ]
    [EVar "%1"].

(* src/field/mod_e511_187.rs:1296-1298  Mul<&F>  i8::mul(&F) *)
Definition f_i8_mul_ref : func := mkfunc ["self"; "a"] [
    (*1297*) SCall ["%1"] "F::small_mul" [AVal "a"; AVal (ECast I32 "self")] ]
    [EVar "%1"].

(* src/field/mod_e511_187.rs:1304-1306  Mul<i32>  (&F)::mul(i32) *)
Definition f_ref_mul_i32 : func := mkfunc ["self"; "a"] [
    (*1305*) SCall ["%1"] "F::small_mul" [AVal "self"; AVal "a"] ]
    [EVar "%1"].

(* src/field/mod_e511_187.rs:1312-1314  Mul<i16>  (&F)::mul(i16) *)
Definition f_ref_mul_i16 : func := mkfunc ["self"; "a"] [
    (*1313*) SCall ["%1"] "F::small_mul" [AVal "self"; AVal (ECast I32 "a")] ]
    [EVar "%1"].

(* src/field/mod_e511_187.rs:1320-1322  Mul<i8>  (&F)::mul(i8) *)
Definition f_ref_mul_i8 : func := mkfunc ["self"; "a"] [
    (*1321*) SCall ["%1"] "F::small_mul" [AVal "self"; AVal (ECast I32 "a")] ]
    [EVar "%1"].

(* src/field/mod_e511_187.rs:1328-1330  Mul<i32>  F::mul(i32) *)
Definition f_mul_i32 : func := mkfunc ["self"; "a"] [
    (*1329*) SCall ["%1"] "(&F)::mul(i32)" [AVal "self"; AVal "a"] ]
    [EVar "%1"].

(* src/field/mod_e511_187.rs:1336-1338  Mul<i16>  F::mul(i16) *)
Definition f_mul_i16 : func := mkfunc ["self"; "a"] [
    (*1337*) SCall ["%1"] "(&F)::mul(i16)" [AVal "self"; AVal "a"] ]
    [EVar "%1"].

(* src/field/mod_e511_187.rs:1344-1346  Mul<i8>  F::mul(i8) *)
Definition f_mul_i8 : func := mkfunc ["self"; "a"] [
    (*1345*) SCall ["%1"] "(&F)::mul(i8)" [AVal "self"; AVal "a"] ]
    [EVar "%1"].

(* src/field/mod_e511_187.rs:1352-1356  Mul<&F>  (&F)::mul(&F) *)
Definition f_ref_mul_ref : func := mkfunc ["self"; "a"] [
    (*1353*) "out" <- "self";
    (*1354*) SCall [] "F::mul_assign(&F)" [AMut "out"; AVal "a"] ]
    [EVar "out"].

(* src/field/mod_e511_187.rs:1362-1364  Mul<F>  F::mul(F) *)
Definition f_mul_val : func := mkfunc ["self"; "a"] [
    (*1363*) SCall ["%1"] "(&F)::mul(&F)" [AVal "self"; AVal "a"] ]
    [EVar "%1"].

(* src/field/mod_e511_187.rs:1368-1376  Rand  F::rand *)
Definition f_rand : func := mkfunc ["rng"] [
    (*1369*) "out" <- ERep #0 10;
    (*1371*) SFor "i" #0 #10 [
      (*1372*) SGenRange "%1" "rng" #0 ((ELit MODULUS).["i"]);
      (*1372*) SSet "out" "i" ("%1") ] ]
    [EVar "out"].

(* src/field/mod_e511_187.rs:1380-1452  Pack  F::unpack *)
Definition f_unpack : func := mkfunc ["self"; "bytes"] [
    (*1381*) SSet "self" #0 ((((((((ECast I64 ("bytes".[#0])) .& #0x00000000000000ff) .| (((ECast I64 ("bytes".[#1])) .<< #8) .& #0x000000000000ff00)) .| (((ECast I64 ("bytes".[#2])) .<< #16) .& #0x0000000000ff0000)) .| (((ECast I64 ("bytes".[#3])) .<< #24) .& #0x00000000ff000000)) .| (((ECast I64 ("bytes".[#4])) .<< #32) .& #0x000000ff00000000)) .| (((ECast I64 ("bytes".[#5])) .<< #40) .& #0x0000ff0000000000)) .| (((ECast I64 ("bytes".[#6])) .<< #48) .& #0x003f000000000000));
    (*1388*) SSet "self" #1 ((((((((((ECast I64 ("bytes".[#6])) .>> #6) .& #0x0000000000000003) .| (((ECast I64 ("bytes".[#7])) .<< #2) .& #0x00000000000003fc)) .| (((ECast I64 ("bytes".[#8])) .<< #10) .& #0x000000000003fc00)) .| (((ECast I64 ("bytes".[#9])) .<< #18) .& #0x0000000003fc0000)) .| (((ECast I64 ("bytes".[#10])) .<< #26) .& #0x00000003fc000000)) .| (((ECast I64 ("bytes".[#11])) .<< #34) .& #0x000003fc00000000)) .| (((ECast I64 ("bytes".[#12])) .<< #42) .& #0x0003fc0000000000)) .| (((ECast I64 ("bytes".[#13])) .<< #50) .& #0x003c000000000000));
    (*1396*) SSet "self" #2 ((((((((((ECast I64 ("bytes".[#13])) .>> #4) .& #0x000000000000000f) .| (((ECast I64 ("bytes".[#14])) .<< #4) .& #0x0000000000000ff0)) .| (((ECast I64 ("bytes".[#15])) .<< #12) .& #0x00000000000ff000)) .| (((ECast I64 ("bytes".[#16])) .<< #20) .& #0x000000000ff00000)) .| (((ECast I64 ("bytes".[#17])) .<< #28) .& #0x0000000ff0000000)) .| (((ECast I64 ("bytes".[#18])) .<< #36) .& #0x00000ff000000000)) .| (((ECast I64 ("bytes".[#19])) .<< #44) .& #0x000ff00000000000)) .| (((ECast I64 ("bytes".[#20])) .<< #52) .& #0x0030000000000000));
    (*1404*) SSet "self" #3 (((((((((ECast I64 ("bytes".[#20])) .>> #2) .& #0x000000000000003f) .| (((ECast I64 ("bytes".[#21])) .<< #6) .& #0x0000000000003fc0)) .| (((ECast I64 ("bytes".[#22])) .<< #14) .& #0x00000000003fc000)) .| (((ECast I64 ("bytes".[#23])) .<< #22) .& #0x000000003fc00000)) .| (((ECast I64 ("bytes".[#24])) .<< #30) .& #0x0000003fc0000000)) .| (((ECast I64 ("bytes".[#25])) .<< #38) .& #0x00003fc000000000)) .| (((ECast I64 ("bytes".[#26])) .<< #46) .& #0x003fc00000000000));
    (*1411*) SSet "self" #4 ((((((((ECast I64 ("bytes".[#27])) .& #0x00000000000000ff) .| (((ECast I64 ("bytes".[#28])) .<< #8) .& #0x000000000000ff00)) .| (((ECast I64 ("bytes".[#29])) .<< #16) .& #0x0000000000ff0000)) .| (((ECast I64 ("bytes".[#30])) .<< #24) .& #0x00000000ff000000)) .| (((ECast I64 ("bytes".[#31])) .<< #32) .& #0x000000ff00000000)) .| (((ECast I64 ("bytes".[#32])) .<< #40) .& #0x0000ff0000000000)) .| (((ECast I64 ("bytes".[#33])) .<< #48) .& #0x003f000000000000));
    (*1418*) SSet "self" #5 ((((((((((ECast I64 ("bytes".[#33])) .>> #6) .& #0x0000000000000003) .| (((ECast I64 ("bytes".[#34])) .<< #2) .& #0x00000000000003fc)) .| (((ECast I64 ("bytes".[#35])) .<< #10) .& #0x000000000003fc00)) .| (((ECast I64 ("bytes".[#36])) .<< #18) .& #0x0000000003fc0000)) .| (((ECast I64 ("bytes".[#37])) .<< #26) .& #0x00000003fc000000)) .| (((ECast I64 ("bytes".[#38])) .<< #34) .& #0x000003fc00000000)) .| (((ECast I64 ("bytes".[#39])) .<< #42) .& #0x0003fc0000000000)) .| (((ECast I64 ("bytes".[#40])) .<< #50) .& #0x003c000000000000));
    (*1426*) SSet "self" #6 ((((((((((ECast I64 ("bytes".[#40])) .>> #4) .& #0x000000000000000f) .| (((ECast I64 ("bytes".[#41])) .<< #4) .& #0x0000000000000ff0)) .| (((ECast I64 ("bytes".[#42])) .<< #12) .& #0x00000000000ff000)) .| (((ECast I64 ("bytes".[#43])) .<< #20) .& #0x000000000ff00000)) .| (((ECast I64 ("bytes".[#44])) .<< #28) .& #0x0000000ff0000000)) .| (((ECast I64 ("bytes".[#45])) .<< #36) .& #0x00000ff000000000)) .| (((ECast I64 ("bytes".[#46])) .<< #44) .& #0x000ff00000000000)) .| (((ECast I64 ("bytes".[#47])) .<< #52) .& #0x0030000000000000));
    (*1434*) SSet "self" #7 (((((((((ECast I64 ("bytes".[#47])) .>> #2) .& #0x000000000000003f) .| (((ECast I64 ("bytes".[#48])) .<< #6) .& #0x0000000000003fc0)) .| (((ECast I64 ("bytes".[#49])) .<< #14) .& #0x00000000003fc000)) .| (((ECast I64 ("bytes".[#50])) .<< #22) .& #0x000000003fc00000)) .| (((ECast I64 ("bytes".[#51])) .<< #30) .& #0x0000003fc0000000)) .| (((ECast I64 ("bytes".[#52])) .<< #38) .& #0x00003fc000000000)) .| (((ECast I64 ("bytes".[#53])) .<< #46) .& #0x003fc00000000000));
    (*1441*) SSet "self" #8 ((((((((ECast I64 ("bytes".[#54])) .& #0x00000000000000ff) .| (((ECast I64 ("bytes".[#55])) .<< #8) .& #0x000000000000ff00)) .| (((ECast I64 ("bytes".[#56])) .<< #16) .& #0x0000000000ff0000)) .| (((ECast I64 ("bytes".[#57])) .<< #24) .& #0x00000000ff000000)) .| (((ECast I64 ("bytes".[#58])) .<< #32) .& #0x000000ff00000000)) .| (((ECast I64 ("bytes".[#59])) .<< #40) .& #0x0000ff0000000000)) .| (((ECast I64 ("bytes".[#60])) .<< #48) .& #0x003f000000000000));
    (*1448*) SSet "self" #9 ((((((ECast I64 ("bytes".[#60])) .>> #6) .& #0x0000000000000003) .| (((ECast I64 ("bytes".[#61])) .<< #2) .& #0x00000000000003fc)) .| (((ECast I64 ("bytes".[#62])) .<< #10) .& #0x000000000003fc00)) .| (((ECast I64 ("bytes".[#63])) .<< #18) .& #0x0000000001fc0000)) ]
    [].

(* src/field/mod_e511_187.rs:1454-1458  Pack  F::unpacked *)
Definition f_unpacked : func := mkfunc ["bytes"] [
    (*1455*) "out" <- ELit ZERO;
    (*1456*) SCall [] "F::unpack" [AMut "out"; AVal "bytes"] ]
    [EVar "out"].

(* src/field/mod_e511_187.rs:1460-1463  Pack  F::pack *)
Definition f_pack : func := mkfunc ["self"; "bytes"] [
    (*1461*) SCall [] "F::normalize" [AMut "self"];
    (*1462*) SCall [] "F::pack_normalized" [AVal "self"; AMut "bytes"] ]
    [].

(* src/field/mod_e511_187.rs:1465-1537  Pack  F::pack_normalized *)
Definition f_pack_normalized : func := mkfunc ["self"; "bytes"] [
    (*1466*) SSet "bytes" #0 (ECast U8 (("self".[#0]) .& #255));
    (*1467*) SSet "bytes" #1 (ECast U8 ((("self".[#0]) .>> #8) .& #255));
    (*1468*) SSet "bytes" #2 (ECast U8 ((("self".[#0]) .>> #16) .& #255));
    (*1469*) SSet "bytes" #3 (ECast U8 ((("self".[#0]) .>> #24) .& #255));
    (*1470*) SSet "bytes" #4 (ECast U8 ((("self".[#0]) .>> #32) .& #255));
    (*1471*) SSet "bytes" #5 (ECast U8 ((("self".[#0]) .>> #40) .& #255));
    (*1472*) SSet "bytes" #6 (ECast U8 (((("self".[#0]) .>> #48) .& #63) .| ((("self".[#1]) .<< #6) .& #192)));
    (*1474*) SSet "bytes" #7 (ECast U8 ((("self".[#1]) .>> #2) .& #255));
    (*1475*) SSet "bytes" #8 (ECast U8 ((("self".[#1]) .>> #10) .& #255));
    (*1476*) SSet "bytes" #9 (ECast U8 ((("self".[#1]) .>> #18) .& #255));
    (*1477*) SSet "bytes" #10 (ECast U8 ((("self".[#1]) .>> #26) .& #255));
    (*1478*) SSet "bytes" #11 (ECast U8 ((("self".[#1]) .>> #34) .& #255));
    (*1479*) SSet "bytes" #12 (ECast U8 ((("self".[#1]) .>> #42) .& #255));
    (*1480*) SSet "bytes" #13 (ECast U8 (((("self".[#1]) .>> #50) .& #15) .| ((("self".[#2]) .<< #4) .& #240)));
    (*1482*) SSet "bytes" #14 (ECast U8 ((("self".[#2]) .>> #4) .& #255));
    (*1483*) SSet "bytes" #15 (ECast U8 ((("self".[#2]) .>> #12) .& #255));
    (*1484*) SSet "bytes" #16 (ECast U8 ((("self".[#2]) .>> #20) .& #255));
    (*1485*) SSet "bytes" #17 (ECast U8 ((("self".[#2]) .>> #28) .& #255));
    (*1486*) SSet "bytes" #18 (ECast U8 ((("self".[#2]) .>> #36) .& #255));
    (*1487*) SSet "bytes" #19 (ECast U8 ((("self".[#2]) .>> #44) .& #255));
    (*1488*) SSet "bytes" #20 (ECast U8 (((("self".[#2]) .>> #52) .& #3) .| ((("self".[#3]) .<< #2) .& #252)));
    (*1490*) SSet "bytes" #21 (ECast U8 ((("self".[#3]) .>> #6) .& #255));
    (*1491*) SSet "bytes" #22 (ECast U8 ((("self".[#3]) .>> #14) .& #255));
    (*1492*) SSet "bytes" #23 (ECast U8 ((("self".[#3]) .>> #22) .& #255));
    (*1493*) SSet "bytes" #24 (ECast U8 ((("self".[#3]) .>> #30) .& #255));
    (*1494*) SSet "bytes" #25 (ECast U8 ((("self".[#3]) .>> #38) .& #255));
    (*1495*) SSet "bytes" #26 (ECast U8 ((("self".[#3]) .>> #46) .& #255));
    (*1496*) SSet "bytes" #27 (ECast U8 (("self".[#4]) .& #255));
    (*1497*) SSet "bytes" #28 (ECast U8 ((("self".[#4]) .>> #8) .& #255));
    (*1498*) SSet "bytes" #29 (ECast U8 ((("self".[#4]) .>> #16) .& #255));
    (*1499*) SSet "bytes" #30 (ECast U8 ((("self".[#4]) .>> #24) .& #255));
    (*1500*) SSet "bytes" #31 (ECast U8 ((("self".[#4]) .>> #32) .& #255));
    (*1501*) SSet "bytes" #32 (ECast U8 ((("self".[#4]) .>> #40) .& #255));
    (*1502*) SSet "bytes" #33 (ECast U8 (((("self".[#4]) .>> #48) .& #63) .| ((("self".[#5]) .<< #6) .& #192)));
    (*1504*) SSet "bytes" #34 (ECast U8 ((("self".[#5]) .>> #2) .& #255));
    (*1505*) SSet "bytes" #35 (ECast U8 ((("self".[#5]) .>> #10) .& #255));
    (*1506*) SSet "bytes" #36 (ECast U8 ((("self".[#5]) .>> #18) .& #255));
    (*1507*) SSet "bytes" #37 (ECast U8 ((("self".[#5]) .>> #26) .& #255));
    (*1508*) SSet "bytes" #38 (ECast U8 ((("self".[#5]) .>> #34) .& #255));
    (*1509*) SSet "bytes" #39 (ECast U8 ((("self".[#5]) .>> #42) .& #255));
    (*1510*) SSet "bytes" #40 (ECast U8 (((("self".[#5]) .>> #50) .& #15) .| ((("self".[#6]) .<< #4) .& #240)));
    (*1512*) SSet "bytes" #41 (ECast U8 ((("self".[#6]) .>> #4) .& #255));
    (*1513*) SSet "bytes" #42 (ECast U8 ((("self".[#6]) .>> #12) .& #255));
    (*1514*) SSet "bytes" #43 (ECast U8 ((("self".[#6]) .>> #20) .& #255));
    (*1515*) SSet "bytes" #44 (ECast U8 ((("self".[#6]) .>> #28) .& #255));
    (*1516*) SSet "bytes" #45 (ECast U8 ((("self".[#6]) .>> #36) .& #255));
    (*1517*) SSet "bytes" #46 (ECast U8 ((("self".[#6]) .>> #44) .& #255));
    (*1518*) SSet "bytes" #47 (ECast U8 (((("self".[#6]) .>> #52) .& #3) .| ((("self".[#7]) .<< #2) .& #252)));
    (*1520*) SSet "bytes" #48 (ECast U8 ((("self".[#7]) .>> #6) .& #255));
    (*1521*) SSet "bytes" #49 (ECast U8 ((("self".[#7]) .>> #14) .& #255));
    (*1522*) SSet "bytes" #50 (ECast U8 ((("self".[#7]) .>> #22) .& #255));
    (*1523*) SSet "bytes" #51 (ECast U8 ((("self".[#7]) .>> #30) .& #255));
    (*1524*) SSet "bytes" #52 (ECast U8 ((("self".[#7]) .>> #38) .& #255));
    (*1525*) SSet "bytes" #53 (ECast U8 ((("self".[#7]) .>> #46) .& #255));
    (*1526*) SSet "bytes" #54 (ECast U8 (("self".[#8]) .& #255));
    (*1527*) SSet "bytes" #55 (ECast U8 ((("self".[#8]) .>> #8) .& #255));
    (*1528*) SSet "bytes" #56 (ECast U8 ((("self".[#8]) .>> #16) .& #255));
    (*1529*) SSet "bytes" #57 (ECast U8 ((("self".[#8]) .>> #24) .& #255));
    (*1530*) SSet "bytes" #58 (ECast U8 ((("self".[#8]) .>> #32) .& #255));
    (*1531*) SSet "bytes" #59 (ECast U8 ((("self".[#8]) .>> #40) .& #255));
    (*1532*) SSet "bytes" #60 (ECast U8 (((("self".[#8]) .>> #48) .& #63) .| ((("self".[#9]) .<< #6) .& #192)));
    (*1534*) SSet "bytes" #61 (ECast U8 ((("self".[#9]) .>> #2) .& #255));
    (*1535*) SSet "bytes" #62 (ECast U8 ((("self".[#9]) .>> #10) .& #255));
    (*1536*) SSet "bytes" #63 (ECast U8 ((("self".[#9]) .>> #18) .& #127)) ]
    [].

(* src/field/mod_e511_187.rs:1539-1541  Pack  F::nbytes *)
Definition f_nbytes : func := mkfunc [] [
 ]
    [#64].

(* src/field/mod_e511_187.rs:1545-1549  Normalize  F::normalize *)
Definition f_normalize : func := mkfunc ["self"] [
    (*1546*) SCall ["plusc"] "(&F)::add(i32)" [AVal "self"; AVal (ECast I32 (EInt C_VAL))];
    (*1547*) SCall ["offset"] "(&F)::mul(i32)" [AVal (ELit MODULUS); AVal (ECast I32 (carry_out "plusc"))];
    (*1548*) SCall [] "F::sub_assign(&F)" [AMut "self"; AVal "offset"] ]
    [].

(* src/field/mod_e511_187.rs:1553-1570  NormalizeEq  F::normalize_self_eq *)
Definition f_normalize_self_eq : func := mkfunc ["self"; "other"] [
    (*1554*) "are_equal" <- #1;
    (*1556*) SCall [] "F::normalize" [AMut "self"];
    (*1558*) "are_equal" <- "are_equal" .& (EEq ("self".[#0]) ("other".[#0]));
    (*1559*) "are_equal" <- "are_equal" .& (EEq ("self".[#1]) ("other".[#1]));
    (*1560*) "are_equal" <- "are_equal" .& (EEq ("self".[#2]) ("other".[#2]));
    (*1561*) "are_equal" <- "are_equal" .& (EEq ("self".[#3]) ("other".[#3]));
    (*1562*) "are_equal" <- "are_equal" .& (EEq ("self".[#4]) ("other".[#4]));
    (*1563*) "are_equal" <- "are_equal" .& (EEq ("self".[#5]) ("other".[#5]));
    (*1564*) "are_equal" <- "are_equal" .& (EEq ("self".[#6]) ("other".[#6]));
    (*1565*) "are_equal" <- "are_equal" .& (EEq ("self".[#7]) ("other".[#7]));
    (*1566*) "are_equal" <- "are_equal" .& (EEq ("self".[#8]) ("other".[#8]));
    (*1567*) "are_equal" <- "are_equal" .& (EEq ("self".[#9]) ("other".[#9])) ]
    [EVar "are_equal"].

(* src/field/mod_e511_187.rs:1572-1575  NormalizeEq  F::normalize_eq *)
Definition f_normalize_eq : func := mkfunc ["self"; "other"] [
    (*1573*) SCall [] "F::normalize" [AMut "other"];
    (*1574*) SCall ["%1"] "F::normalize_self_eq" [AMut "self"; AVal "other"] ]
    [EVar "%1"].

(* src/field/mod_e511_187.rs:1579-1599  PrimeFieldMask  Mask::fill *)
Definition f_Mask_fill : func := mkfunc ["self"; "bit"] [
    (*1580*) "mask" <- ECast I64 "bit";
    (*1582*) "mask" <- "mask" .| ("mask" .<< #1);
    (*1583*) "mask" <- "mask" .| ("mask" .<< #2);
    (*1584*) "mask" <- "mask" .| ("mask" .<< #4);
    (*1585*) "mask" <- "mask" .| ("mask" .<< #8);
    (*1586*) "mask" <- "mask" .| ("mask" .<< #16);
    (*1587*) "mask" <- "mask" .| ("mask" .<< #32);
    (*1589*) SSet "self" #0 ("mask");
    (*1590*) SSet "self" #1 ("mask");
    (*1591*) SSet "self" #2 ("mask");
    (*1592*) SSet "self" #3 ("mask");
    (*1593*) SSet "self" #4 ("mask");
    (*1594*) SSet "self" #5 ("mask");
    (*1595*) SSet "self" #6 ("mask");
    (*1596*) SSet "self" #7 ("mask");
    (*1597*) SSet "self" #8 ("mask");
    (*1598*) SSet "self" #9 ("mask") ]
    [].

(* src/field/mod_e511_187.rs:1601-1612  PrimeFieldMask  Mask::filled *)
Definition f_Mask_filled : func := mkfunc ["bit"] [
    (*1602*) "mask" <- ECast I64 "bit";
    (*1604*) "mask" <- "mask" .| ("mask" .<< #1);
    (*1605*) "mask" <- "mask" .| ("mask" .<< #2);
    (*1606*) "mask" <- "mask" .| ("mask" .<< #4);
    (*1607*) "mask" <- "mask" .| ("mask" .<< #8);
    (*1608*) "mask" <- "mask" .| ("mask" .<< #16);
    (*1609*) "mask" <- "mask" .| ("mask" .<< #32) ]
    [ERep "mask" 10].

(* src/field/mod_e511_187.rs:1616-1636  PrimeField  F::fill *)
Definition f_fill : func := mkfunc ["self"; "bit"] [
    (*1617*) "mask" <- ECast I64 "bit";
    (*1619*) "mask" <- "mask" .| ("mask" .<< #1);
    (*1620*) "mask" <- "mask" .| ("mask" .<< #2);
    (*1621*) "mask" <- "mask" .| ("mask" .<< #4);
    (*1622*) "mask" <- "mask" .| ("mask" .<< #8);
    (*1623*) "mask" <- "mask" .| ("mask" .<< #16);
    (*1624*) "mask" <- "mask" .| ("mask" .<< #32);
    (*1626*) SSet "self" #0 ("mask");
    (*1627*) SSet "self" #1 ("mask");
    (*1628*) SSet "self" #2 ("mask");
    (*1629*) SSet "self" #3 ("mask");
    (*1630*) SSet "self" #4 ("mask");
    (*1631*) SSet "self" #5 ("mask");
    (*1632*) SSet "self" #6 ("mask");
    (*1633*) SSet "self" #7 ("mask");
    (*1634*) SSet "self" #8 ("mask");
    (*1635*) SSet "self" #9 ("mask") ]
    [].

(* src/field/mod_e511_187.rs:1638-1649  PrimeField  F::filled *)
Definition f_filled : func := mkfunc ["bit"] [
    (*1639*) "mask" <- ECast I64 "bit";
    (*1641*) "mask" <- "mask" .| ("mask" .<< #1);
    (*1642*) "mask" <- "mask" .| ("mask" .<< #2);
    (*1643*) "mask" <- "mask" .| ("mask" .<< #4);
    (*1644*) "mask" <- "mask" .| ("mask" .<< #8);
    (*1645*) "mask" <- "mask" .| ("mask" .<< #16);
    (*1646*) "mask" <- "mask" .| ("mask" .<< #32) ]
    [ERep "mask" 10].

(* src/field/mod_e511_187.rs:1651-1651  PrimeField  F::nbits *)
Definition f_nbits : func := mkfunc [] [
 ]
    [#511].

(* src/field/mod_e511_187.rs:1653-1658  PrimeField  F::bit_normalized *)
Definition f_bit_normalized : func := mkfunc ["self"; "idx"] [
    (*1654*) "byte" <- EUDiv "idx" #54;
    (*1655*) "bit" <- EURem "idx" #54 ]
    [EEq ((("self".["byte"]) .>> "bit") .& #0x1) #0x1].

(* src/field/mod_e511_187.rs:1660-1663  PrimeField  F::bit *)
Definition f_bit : func := mkfunc ["self"; "idx"] [
    (*1661*) SCall [] "F::normalize" [AMut "self"];
    (*1662*) SCall ["%1"] "F::bit_normalized" [AVal "self"; AVal "idx"] ]
    [EVar "%1"].

(* src/field/mod_e511_187.rs:1665-1668  PrimeField  F::normalize_bitand *)
Definition f_normalize_bitand : func := mkfunc ["self"; "rhs"] [
    (*1666*) SCall [] "F::normalize" [AMut "rhs"];
    (*1667*) SCall [] "F::normalize_self_bitand" [AMut "self"; AVal "rhs"] ]
    [].

(* src/field/mod_e511_187.rs:1670-1673  PrimeField  F::normalize_self_bitand *)
Definition f_normalize_self_bitand : func := mkfunc ["self"; "rhs"] [
    (*1671*) SCall [] "F::normalize" [AMut "self"];
    (*1672*) SCall [] "F::normalized_bitand" [AMut "self"; AVal "rhs"] ]
    [].

(* src/field/mod_e511_187.rs:1675-1686  PrimeField  F::normalized_bitand *)
Definition f_normalized_bitand : func := mkfunc ["self"; "rhs"] [
    (*1676*) SSet "self" #0 (("self".[#0]) .& ("rhs".[#0]));
    (*1677*) SSet "self" #1 (("self".[#1]) .& ("rhs".[#1]));
    (*1678*) SSet "self" #2 (("self".[#2]) .& ("rhs".[#2]));
    (*1679*) SSet "self" #3 (("self".[#3]) .& ("rhs".[#3]));
    (*1680*) SSet "self" #4 (("self".[#4]) .& ("rhs".[#4]));
    (*1681*) SSet "self" #5 (("self".[#5]) .& ("rhs".[#5]));
    (*1682*) SSet "self" #6 (("self".[#6]) .& ("rhs".[#6]));
    (*1683*) SSet "self" #7 (("self".[#7]) .& ("rhs".[#7]));
    (*1684*) SSet "self" #8 (("self".[#8]) .& ("rhs".[#8]));
    (*1685*) SSet "self" #9 (("self".[#9]) .& ("rhs".[#9])) ]
    [].

(* src/field/mod_e511_187.rs:1688-1691  PrimeField  F::normalize_bitor *)
Definition f_normalize_bitor : func := mkfunc ["self"; "rhs"] [
    (*1689*) SCall [] "F::normalize" [AMut "rhs"];
    (*1690*) SCall [] "F::normalize_self_bitor" [AMut "self"; AVal "rhs"] ]
    [].

(* src/field/mod_e511_187.rs:1693-1696  PrimeField  F::normalize_self_bitor *)
Definition f_normalize_self_bitor : func := mkfunc ["self"; "rhs"] [
    (*1694*) SCall [] "F::normalize" [AMut "self"];
    (*1695*) SCall [] "F::normalized_bitor" [AMut "self"; AVal "rhs"] ]
    [].

(* src/field/mod_e511_187.rs:1698-1709  PrimeField  F::normalized_bitor *)
Definition f_normalized_bitor : func := mkfunc ["self"; "rhs"] [
    (*1699*) SSet "self" #0 (("self".[#0]) .| ("rhs".[#0]));
    (*1700*) SSet "self" #1 (("self".[#1]) .| ("rhs".[#1]));
    (*1701*) SSet "self" #2 (("self".[#2]) .| ("rhs".[#2]));
    (*1702*) SSet "self" #3 (("self".[#3]) .| ("rhs".[#3]));
    (*1703*) SSet "self" #4 (("self".[#4]) .| ("rhs".[#4]));
    (*1704*) SSet "self" #5 (("self".[#5]) .| ("rhs".[#5]));
    (*1705*) SSet "self" #6 (("self".[#6]) .| ("rhs".[#6]));
    (*1706*) SSet "self" #7 (("self".[#7]) .| ("rhs".[#7]));
    (*1707*) SSet "self" #8 (("self".[#8]) .| ("rhs".[#8]));
    (*1708*) SSet "self" #9 (("self".[#9]) .| ("rhs".[#9])) ]
    [].

(* src/field/mod_e511_187.rs:1711-1713  PrimeField  F::zero *)
Definition f_zero : func := mkfunc [] [
 ]
    [ELit ZERO].

(* src/field/mod_e511_187.rs:1715-1717  PrimeField  F::one *)
Definition f_one : func := mkfunc [] [
 ]
    [ELit ONE].

(* src/field/mod_e511_187.rs:1719-1721  PrimeField  F::m_one *)
Definition f_m_one : func := mkfunc [] [
 ]
    [ELit M_ONE].

(* src/field/mod_e511_187.rs:1723-1725  PrimeField  F::modulus *)
Definition f_modulus : func := mkfunc [] [
 ]
    [ELit MODULUS].

(* src/field/mod_e511_187.rs:1727-2413  PrimeField  F::square *)
Definition f_square : func := mkfunc ["self"] [
    (*1728*) "a0" <- ("self".[#0]) .& #0x07ffffff;
    (*1729*) "a1" <- ("self".[#0]) .>> #27;
    (*1730*) "a2" <- ("self".[#1]) .& #0x07ffffff;
    (*1731*) "a3" <- ("self".[#1]) .>> #27;
    (*1732*) "a4" <- ("self".[#2]) .& #0x07ffffff;
    (*1733*) "a5" <- ("self".[#2]) .>> #27;
    (*1734*) "a6" <- ("self".[#3]) .& #0x07ffffff;
    (*1735*) "a7" <- ("self".[#3]) .>> #27;
    (*1736*) "a8" <- ("self".[#4]) .& #0x07ffffff;
    (*1737*) "a9" <- ("self".[#4]) .>> #27;
    (*1738*) "a10" <- ("self".[#5]) .& #0x07ffffff;
    (*1739*) "a11" <- ("self".[#5]) .>> #27;
    (*1740*) "a12" <- ("self".[#6]) .& #0x07ffffff;
    (*1741*) "a13" <- ("self".[#6]) .>> #27;
    (*1742*) "a14" <- ("self".[#7]) .& #0x07ffffff;
    (*1743*) "a15" <- ("self".[#7]) .>> #27;
    (*1744*) "a16" <- ("self".[#8]) .& #0x07ffffff;
    (*1745*) "a17" <- ("self".[#8]) .>> #27;
    (*1746*) "a18" <- "self".[#9];
    (*1749*) "m_0_0" <- "a0" .* "a0";
    (*1750*) "m_0_1" <- "a0" .* "a1";
    (*1751*) "m_0_2" <- "a0" .* "a2";
    (*1752*) "m_0_3" <- "a0" .* "a3";
    (*1753*) "m_0_4" <- "a0" .* "a4";
    (*1754*) "m_0_5" <- "a0" .* "a5";
    (*1755*) "m_0_6" <- "a0" .* "a6";
    (*1756*) "m_0_7" <- "a0" .* "a7";
    (*1757*) "m_0_8" <- "a0" .* "a8";
    (*1758*) "m_0_9" <- "a0" .* "a9";
    (*1759*) "m_0_10" <- "a0" .* "a10";
    (*1760*) "m_0_11" <- "a0" .* "a11";
    (*1761*) "m_0_12" <- "a0" .* "a12";
    (*1762*) "m_0_13" <- "a0" .* "a13";
    (*1763*) "m_0_14" <- "a0" .* "a14";
    (*1764*) "m_0_15" <- "a0" .* "a15";
    (*1765*) "m_0_16" <- "a0" .* "a16";
    (*1766*) "m_0_17" <- "a0" .* "a17";
    (*1767*) "m_0_18" <- "a0" .* "a18";
    (*1768*) "m_1_0" <- "m_0_1";
    (*1769*) "m_1_1" <- "a1" .* "a1";
    (*1770*) "m_1_2" <- "a1" .* "a2";
    (*1771*) "m_1_3" <- "a1" .* "a3";
    (*1772*) "m_1_4" <- "a1" .* "a4";
    (*1773*) "m_1_5" <- "a1" .* "a5";
    (*1774*) "m_1_6" <- "a1" .* "a6";
    (*1775*) "m_1_7" <- "a1" .* "a7";
    (*1776*) "m_1_8" <- "a1" .* "a8";
    (*1777*) "m_1_9" <- "a1" .* "a9";
    (*1778*) "m_1_10" <- "a1" .* "a10";
    (*1779*) "m_1_11" <- "a1" .* "a11";
    (*1780*) "m_1_12" <- "a1" .* "a12";
    (*1781*) "m_1_13" <- "a1" .* "a13";
    (*1782*) "m_1_14" <- "a1" .* "a14";
    (*1783*) "m_1_15" <- "a1" .* "a15";
    (*1784*) "m_1_16" <- "a1" .* "a16";
    (*1785*) "m_1_17" <- "a1" .* "a17";
    (*1786*) "m_1_18" <- "a1" .* "a18";
    (*1787*) "m_2_0" <- "m_0_2";
    (*1788*) "m_2_1" <- "m_1_2";
    (*1789*) "m_2_2" <- "a2" .* "a2";
    (*1790*) "m_2_3" <- "a2" .* "a3";
    (*1791*) "m_2_4" <- "a2" .* "a4";
    (*1792*) "m_2_5" <- "a2" .* "a5";
    (*1793*) "m_2_6" <- "a2" .* "a6";
    (*1794*) "m_2_7" <- "a2" .* "a7";
    (*1795*) "m_2_8" <- "a2" .* "a8";
    (*1796*) "m_2_9" <- "a2" .* "a9";
    (*1797*) "m_2_10" <- "a2" .* "a10";
    (*1798*) "m_2_11" <- "a2" .* "a11";
    (*1799*) "m_2_12" <- "a2" .* "a12";
    (*1800*) "m_2_13" <- "a2" .* "a13";
    (*1801*) "m_2_14" <- "a2" .* "a14";
    (*1802*) "m_2_15" <- "a2" .* "a15";
    (*1803*) "m_2_16" <- "a2" .* "a16";
    (*1804*) "m_2_17" <- "a2" .* "a17";
    (*1805*) "m_2_18" <- "a2" .* "a18";
    (*1806*) "m_3_0" <- "m_0_3";
    (*1807*) "m_3_1" <- "m_1_3";
    (*1808*) "m_3_2" <- "m_2_3";
    (*1809*) "m_3_3" <- "a3" .* "a3";
    (*1810*) "m_3_4" <- "a3" .* "a4";
    (*1811*) "m_3_5" <- "a3" .* "a5";
    (*1812*) "m_3_6" <- "a3" .* "a6";
    (*1813*) "m_3_7" <- "a3" .* "a7";
    (*1814*) "m_3_8" <- "a3" .* "a8";
    (*1815*) "m_3_9" <- "a3" .* "a9";
    (*1816*) "m_3_10" <- "a3" .* "a10";
    (*1817*) "m_3_11" <- "a3" .* "a11";
    (*1818*) "m_3_12" <- "a3" .* "a12";
    (*1819*) "m_3_13" <- "a3" .* "a13";
    (*1820*) "m_3_14" <- "a3" .* "a14";
    (*1821*) "m_3_15" <- "a3" .* "a15";
    (*1822*) "m_3_16" <- "a3" .* "a16";
    (*1823*) "m_3_17" <- "a3" .* "a17";
    (*1824*) "m_3_18" <- "a3" .* "a18";
    (*1825*) "m_4_0" <- "m_0_4";
    (*1826*) "m_4_1" <- "m_1_4";
    (*1827*) "m_4_2" <- "m_2_4";
    (*1828*) "m_4_3" <- "m_3_4";
    (*1829*) "m_4_4" <- "a4" .* "a4";
    (*1830*) "m_4_5" <- "a4" .* "a5";
    (*1831*) "m_4_6" <- "a4" .* "a6";
    (*1832*) "m_4_7" <- "a4" .* "a7";
    (*1833*) "m_4_8" <- "a4" .* "a8";
    (*1834*) "m_4_9" <- "a4" .* "a9";
    (*1835*) "m_4_10" <- "a4" .* "a10";
    (*1836*) "m_4_11" <- "a4" .* "a11";
    (*1837*) "m_4_12" <- "a4" .* "a12";
    (*1838*) "m_4_13" <- "a4" .* "a13";
    (*1839*) "m_4_14" <- "a4" .* "a14";
    (*1840*) "m_4_15" <- "a4" .* "a15";
    (*1841*) "m_4_16" <- "a4" .* "a16";
    (*1842*) "m_4_17" <- "a4" .* "a17";
    (*1843*) "m_4_18" <- "a4" .* "a18";
    (*1844*) "m_5_0" <- "m_0_5";
    (*1845*) "m_5_1" <- "m_1_5";
    (*1846*) "m_5_2" <- "m_2_5";
    (*1847*) "m_5_3" <- "m_3_5";
    (*1848*) "m_5_4" <- "m_4_5";
    (*1849*) "m_5_5" <- "a5" .* "a5";
    (*1850*) "m_5_6" <- "a5" .* "a6";
    (*1851*) "m_5_7" <- "a5" .* "a7";
    (*1852*) "m_5_8" <- "a5" .* "a8";
    (*1853*) "m_5_9" <- "a5" .* "a9";
    (*1854*) "m_5_10" <- "a5" .* "a10";
    (*1855*) "m_5_11" <- "a5" .* "a11";
    (*1856*) "m_5_12" <- "a5" .* "a12";
    (*1857*) "m_5_13" <- "a5" .* "a13";
    (*1858*) "m_5_14" <- "a5" .* "a14";
    (*1859*) "m_5_15" <- "a5" .* "a15";
    (*1860*) "m_5_16" <- "a5" .* "a16";
    (*1861*) "m_5_17" <- "a5" .* "a17";
    (*1862*) "m_5_18" <- "a5" .* "a18";
    (*1863*) "m_6_0" <- "m_0_6";
    (*1864*) "m_6_1" <- "m_1_6";
    (*1865*) "m_6_2" <- "m_2_6";
    (*1866*) "m_6_3" <- "m_3_6";
    (*1867*) "m_6_4" <- "m_4_6";
    (*1868*) "m_6_5" <- "m_5_6";
    (*1869*) "m_6_6" <- "a6" .* "a6";
    (*1870*) "m_6_7" <- "a6" .* "a7";
    (*1871*) "m_6_8" <- "a6" .* "a8";
    (*1872*) "m_6_9" <- "a6" .* "a9";
    (*1873*) "m_6_10" <- "a6" .* "a10";
    (*1874*) "m_6_11" <- "a6" .* "a11";
    (*1875*) "m_6_12" <- "a6" .* "a12";
    (*1876*) "m_6_13" <- "a6" .* "a13";
    (*1877*) "m_6_14" <- "a6" .* "a14";
    (*1878*) "m_6_15" <- "a6" .* "a15";
    (*1879*) "m_6_16" <- "a6" .* "a16";
    (*1880*) "m_6_17" <- "a6" .* "a17";
    (*1881*) "m_6_18" <- "a6" .* "a18";
    (*1882*) "m_7_0" <- "m_0_7";
    (*1883*) "m_7_1" <- "m_1_7";
    (*1884*) "m_7_2" <- "m_2_7";
    (*1885*) "m_7_3" <- "m_3_7";
    (*1886*) "m_7_4" <- "m_4_7";
    (*1887*) "m_7_5" <- "m_5_7";
    (*1888*) "m_7_6" <- "m_6_7";
    (*1889*) "m_7_7" <- "a7" .* "a7";
    (*1890*) "m_7_8" <- "a7" .* "a8";
    (*1891*) "m_7_9" <- "a7" .* "a9";
    (*1892*) "m_7_10" <- "a7" .* "a10";
    (*1893*) "m_7_11" <- "a7" .* "a11";
    (*1894*) "m_7_12" <- "a7" .* "a12";
    (*1895*) "m_7_13" <- "a7" .* "a13";
    (*1896*) "m_7_14" <- "a7" .* "a14";
    (*1897*) "m_7_15" <- "a7" .* "a15";
    (*1898*) "m_7_16" <- "a7" .* "a16";
    (*1899*) "m_7_17" <- "a7" .* "a17";
    (*1900*) "m_7_18" <- "a7" .* "a18";
    (*1901*) "m_8_0" <- "m_0_8";
    (*1902*) "m_8_1" <- "m_1_8";
    (*1903*) "m_8_2" <- "m_2_8";
    (*1904*) "m_8_3" <- "m_3_8";
    (*1905*) "m_8_4" <- "m_4_8";
    (*1906*) "m_8_5" <- "m_5_8";
    (*1907*) "m_8_6" <- "m_6_8";
    (*1908*) "m_8_7" <- "m_7_8";
    (*1909*) "m_8_8" <- "a8" .* "a8";
    (*1910*) "m_8_9" <- "a8" .* "a9";
    (*1911*) "m_8_10" <- "a8" .* "a10";
    (*1912*) "m_8_11" <- "a8" .* "a11";
    (*1913*) "m_8_12" <- "a8" .* "a12";
    (*1914*) "m_8_13" <- "a8" .* "a13";
    (*1915*) "m_8_14" <- "a8" .* "a14";
    (*1916*) "m_8_15" <- "a8" .* "a15";
    (*1917*) "m_8_16" <- "a8" .* "a16";
    (*1918*) "m_8_17" <- "a8" .* "a17";
    (*1919*) "m_8_18" <- "a8" .* "a18";
    (*1920*) "m_9_0" <- "m_0_9";
    (*1921*) "m_9_1" <- "m_1_9";
    (*1922*) "m_9_2" <- "m_2_9";
    (*1923*) "m_9_3" <- "m_3_9";
    (*1924*) "m_9_4" <- "m_4_9";
    (*1925*) "m_9_5" <- "m_5_9";
    (*1926*) "m_9_6" <- "m_6_9";
    (*1927*) "m_9_7" <- "m_7_9";
    (*1928*) "m_9_8" <- "m_8_9";
    (*1929*) "m_9_9" <- "a9" .* "a9";
    (*1930*) "m_9_10" <- "a9" .* "a10";
    (*1931*) "m_9_11" <- "a9" .* "a11";
    (*1932*) "m_9_12" <- "a9" .* "a12";
    (*1933*) "m_9_13" <- "a9" .* "a13";
    (*1934*) "m_9_14" <- "a9" .* "a14";
    (*1935*) "m_9_15" <- "a9" .* "a15";
    (*1936*) "m_9_16" <- "a9" .* "a16";
    (*1937*) "m_9_17" <- "a9" .* "a17";
    (*1938*) "m_9_18" <- "a9" .* "a18";
    (*1939*) "m_10_0" <- "m_0_10";
    (*1940*) "m_10_1" <- "m_1_10";
    (*1941*) "m_10_2" <- "m_2_10";
    (*1942*) "m_10_3" <- "m_3_10";
    (*1943*) "m_10_4" <- "m_4_10";
    (*1944*) "m_10_5" <- "m_5_10";
    (*1945*) "m_10_6" <- "m_6_10";
    (*1946*) "m_10_7" <- "m_7_10";
    (*1947*) "m_10_8" <- "m_8_10";
    (*1948*) "m_10_9" <- "m_9_10";
    (*1949*) "m_10_10" <- "a10" .* "a10";
    (*1950*) "m_10_11" <- "a10" .* "a11";
    (*1951*) "m_10_12" <- "a10" .* "a12";
    (*1952*) "m_10_13" <- "a10" .* "a13";
    (*1953*) "m_10_14" <- "a10" .* "a14";
    (*1954*) "m_10_15" <- "a10" .* "a15";
    (*1955*) "m_10_16" <- "a10" .* "a16";
    (*1956*) "m_10_17" <- "a10" .* "a17";
    (*1957*) "m_10_18" <- "a10" .* "a18";
    (*1958*) "m_11_0" <- "m_0_11";
    (*1959*) "m_11_1" <- "m_1_11";
    (*1960*) "m_11_2" <- "m_2_11";
    (*1961*) "m_11_3" <- "m_3_11";
    (*1962*) "m_11_4" <- "m_4_11";
    (*1963*) "m_11_5" <- "m_5_11";
    (*1964*) "m_11_6" <- "m_6_11";
    (*1965*) "m_11_7" <- "m_7_11";
    (*1966*) "m_11_8" <- "m_8_11";
    (*1967*) "m_11_9" <- "m_9_11";
    (*1968*) "m_11_10" <- "m_10_11";
    (*1969*) "m_11_11" <- "a11" .* "a11";
    (*1970*) "m_11_12" <- "a11" .* "a12";
    (*1971*) "m_11_13" <- "a11" .* "a13";
    (*1972*) "m_11_14" <- "a11" .* "a14";
    (*1973*) "m_11_15" <- "a11" .* "a15";
    (*1974*) "m_11_16" <- "a11" .* "a16";
    (*1975*) "m_11_17" <- "a11" .* "a17";
    (*1976*) "m_11_18" <- "a11" .* "a18";
    (*1977*) "m_12_0" <- "m_0_12";
    (*1978*) "m_12_1" <- "m_1_12";
    (*1979*) "m_12_2" <- "m_2_12";
    (*1980*) "m_12_3" <- "m_3_12";
    (*1981*) "m_12_4" <- "m_4_12";
    (*1982*) "m_12_5" <- "m_5_12";
    (*1983*) "m_12_6" <- "m_6_12";
    (*1984*) "m_12_7" <- "m_7_12";
    (*1985*) "m_12_8" <- "m_8_12";
    (*1986*) "m_12_9" <- "m_9_12";
    (*1987*) "m_12_10" <- "m_10_12";
    (*1988*) "m_12_11" <- "m_11_12";
    (*1989*) "m_12_12" <- "a12" .* "a12";
    (*1990*) "m_12_13" <- "a12" .* "a13";
    (*1991*) "m_12_14" <- "a12" .* "a14";
    (*1992*) "m_12_15" <- "a12" .* "a15";
    (*1993*) "m_12_16" <- "a12" .* "a16";
    (*1994*) "m_12_17" <- "a12" .* "a17";
    (*1995*) "m_12_18" <- "a12" .* "a18";
    (*1996*) "m_13_0" <- "m_0_13";
    (*1997*) "m_13_1" <- "m_1_13";
    (*1998*) "m_13_2" <- "m_2_13";
    (*1999*) "m_13_3" <- "m_3_13";
    (*2000*) "m_13_4" <- "m_4_13";
    (*2001*) "m_13_5" <- "m_5_13";
    (*2002*) "m_13_6" <- "m_6_13";
    (*2003*) "m_13_7" <- "m_7_13";
    (*2004*) "m_13_8" <- "m_8_13";
    (*2005*) "m_13_9" <- "m_9_13";
    (*2006*) "m_13_10" <- "m_10_13";
    (*2007*) "m_13_11" <- "m_11_13";
    (*2008*) "m_13_12" <- "m_12_13";
    (*2009*) "m_13_13" <- "a13" .* "a13";
    (*2010*) "m_13_14" <- "a13" .* "a14";
    (*2011*) "m_13_15" <- "a13" .* "a15";
    (*2012*) "m_13_16" <- "a13" .* "a16";
    (*2013*) "m_13_17" <- "a13" .* "a17";
    (*2014*) "m_13_18" <- "a13" .* "a18";
    (*2015*) "m_14_0" <- "m_0_14";
    (*2016*) "m_14_1" <- "m_1_14";
    (*2017*) "m_14_2" <- "m_2_14";
    (*2018*) "m_14_3" <- "m_3_14";
    (*2019*) "m_14_4" <- "m_4_14";
    (*2020*) "m_14_5" <- "m_5_14";
    (*2021*) "m_14_6" <- "m_6_14";
    (*2022*) "m_14_7" <- "m_7_14";
    (*2023*) "m_14_8" <- "m_8_14";
    (*2024*) "m_14_9" <- "m_9_14";
    (*2025*) "m_14_10" <- "m_10_14";
    (*2026*) "m_14_11" <- "m_11_14";
    (*2027*) "m_14_12" <- "m_12_14";
    (*2028*) "m_14_13" <- "m_13_14";
    (*2029*) "m_14_14" <- "a14" .* "a14";
    (*2030*) "m_14_15" <- "a14" .* "a15";
    (*2031*) "m_14_16" <- "a14" .* "a16";
    (*2032*) "m_14_17" <- "a14" .* "a17";
    (*2033*) "m_14_18" <- "a14" .* "a18";
    (*2034*) "m_15_0" <- "m_0_15";
    (*2035*) "m_15_1" <- "m_1_15";
    (*2036*) "m_15_2" <- "m_2_15";
    (*2037*) "m_15_3" <- "m_3_15";
    (*2038*) "m_15_4" <- "m_4_15";
    (*2039*) "m_15_5" <- "m_5_15";
    (*2040*) "m_15_6" <- "m_6_15";
    (*2041*) "m_15_7" <- "m_7_15";
    (*2042*) "m_15_8" <- "m_8_15";
    (*2043*) "m_15_9" <- "m_9_15";
    (*2044*) "m_15_10" <- "m_10_15";
    (*2045*) "m_15_11" <- "m_11_15";
    (*2046*) "m_15_12" <- "m_12_15";
    (*2047*) "m_15_13" <- "m_13_15";
    (*2048*) "m_15_14" <- "m_14_15";
    (*2049*) "m_15_15" <- "a15" .* "a15";
    (*2050*) "m_15_16" <- "a15" .* "a16";
    (*2051*) "m_15_17" <- "a15" .* "a17";
    (*2052*) "m_15_18" <- "a15" .* "a18";
    (*2053*) "m_16_0" <- "m_0_16";
    (*2054*) "m_16_1" <- "m_1_16";
    (*2055*) "m_16_2" <- "m_2_16";
    (*2056*) "m_16_3" <- "m_3_16";
    (*2057*) "m_16_4" <- "m_4_16";
    (*2058*) "m_16_5" <- "m_5_16";
    (*2059*) "m_16_6" <- "m_6_16";
    (*2060*) "m_16_7" <- "m_7_16";
    (*2061*) "m_16_8" <- "m_8_16";
    (*2062*) "m_16_9" <- "m_9_16";
    (*2063*) "m_16_10" <- "m_10_16";
    (*2064*) "m_16_11" <- "m_11_16";
    (*2065*) "m_16_12" <- "m_12_16";
    (*2066*) "m_16_13" <- "m_13_16";
    (*2067*) "m_16_14" <- "m_14_16";
    (*2068*) "m_16_15" <- "m_15_16";
    (*2069*) "m_16_16" <- "a16" .* "a16";
    (*2070*) "m_16_17" <- "a16" .* "a17";
    (*2071*) "m_16_18" <- "a16" .* "a18";
    (*2072*) "m_17_0" <- "m_0_17";
    (*2073*) "m_17_1" <- "m_1_17";
    (*2074*) "m_17_2" <- "m_2_17";
    (*2075*) "m_17_3" <- "m_3_17";
    (*2076*) "m_17_4" <- "m_4_17";
    (*2077*) "m_17_5" <- "m_5_17";
    (*2078*) "m_17_6" <- "m_6_17";
    (*2079*) "m_17_7" <- "m_7_17";
    (*2080*) "m_17_8" <- "m_8_17";
    (*2081*) "m_17_9" <- "m_9_17";
    (*2082*) "m_17_10" <- "m_10_17";
    (*2083*) "m_17_11" <- "m_11_17";
    (*2084*) "m_17_12" <- "m_12_17";
    (*2085*) "m_17_13" <- "m_13_17";
    (*2086*) "m_17_14" <- "m_14_17";
    (*2087*) "m_17_15" <- "m_15_17";
    (*2088*) "m_17_16" <- "m_16_17";
    (*2089*) "m_17_17" <- "a17" .* "a17";
    (*2090*) "m_17_18" <- "a17" .* "a18";
    (*2091*) "m_18_0" <- "m_0_18";
    (*2092*) "m_18_1" <- "m_1_18";
    (*2093*) "m_18_2" <- "m_2_18";
    (*2094*) "m_18_3" <- "m_3_18";
    (*2095*) "m_18_4" <- "m_4_18";
    (*2096*) "m_18_5" <- "m_5_18";
    (*2097*) "m_18_6" <- "m_6_18";
    (*2098*) "m_18_7" <- "m_7_18";
    (*2099*) "m_18_8" <- "m_8_18";
    (*2100*) "m_18_9" <- "m_9_18";
    (*2101*) "m_18_10" <- "m_10_18";
    (*2102*) "m_18_11" <- "m_11_18";
    (*2103*) "m_18_12" <- "m_12_18";
    (*2104*) "m_18_13" <- "m_13_18";
    (*2105*) "m_18_14" <- "m_14_18";
    (*2106*) "m_18_15" <- "m_15_18";
    (*2107*) "m_18_16" <- "m_16_18";
    (*2108*) "m_18_17" <- "m_17_18";
    (*2109*) "m_18_18" <- "a18" .* "a18";
    (*2112*) "d0" <- ("m_0_0" .+ (("m_0_1" .& #0x07ffffff) .<< #27)) .+ (("m_1_0" .& #0x07ffffff) .<< #27);
    (*2114*) "c0" <- "d0" .>> #54;
    (*2115*) "d1" <- ((((((((("m_0_1" .>> #27) .+ "m_0_2") .+ (("m_0_3" .& #0x07ffffff) .<< #27)) .+ ("m_1_0" .>> #27)) .+ "m_1_1") .+ (("m_1_2" .& #0x07ffffff) .<< #27)) .+ "m_2_0") .+ (("m_2_1" .& #0x07ffffff) .<< #27)) .+ (("m_3_0" .& #0x07ffffff) .<< #27)) .+ "c0";
    (*2119*) "c1" <- "d1" .>> #54;
    (*2120*) "d2" <- ((((((((((((((("m_0_3" .>> #27) .+ "m_0_4") .+ (("m_0_5" .& #0x07ffffff) .<< #27)) .+ ("m_1_2" .>> #27)) .+ "m_1_3") .+ (("m_1_4" .& #0x07ffffff) .<< #27)) .+ ("m_2_1" .>> #27)) .+ "m_2_2") .+ (("m_2_3" .& #0x07ffffff) .<< #27)) .+ ("m_3_0" .>> #27)) .+ "m_3_1") .+ (("m_3_2" .& #0x07ffffff) .<< #27)) .+ "m_4_0") .+ (("m_4_1" .& #0x07ffffff) .<< #27)) .+ (("m_5_0" .& #0x07ffffff) .<< #27)) .+ "c1";
    (*2126*) "c2" <- "d2" .>> #54;
    (*2127*) "d3" <- ((((((((((((((((((((("m_0_5" .>> #27) .+ "m_0_6") .+ (("m_0_7" .& #0x07ffffff) .<< #27)) .+ ("m_1_4" .>> #27)) .+ "m_1_5") .+ (("m_1_6" .& #0x07ffffff) .<< #27)) .+ ("m_2_3" .>> #27)) .+ "m_2_4") .+ (("m_2_5" .& #0x07ffffff) .<< #27)) .+ ("m_3_2" .>> #27)) .+ "m_3_3") .+ (("m_3_4" .& #0x07ffffff) .<< #27)) .+ ("m_4_1" .>> #27)) .+ "m_4_2") .+ (("m_4_3" .& #0x07ffffff) .<< #27)) .+ ("m_5_0" .>> #27)) .+ "m_5_1") .+ (("m_5_2" .& #0x07ffffff) .<< #27)) .+ "m_6_0") .+ (("m_6_1" .& #0x07ffffff) .<< #27)) .+ (("m_7_0" .& #0x07ffffff) .<< #27)) .+ "c2";
    (*2135*) "c3" <- "d3" .>> #54;
    (*2136*) "d4" <- ((((((((((((((((((((((((((("m_0_7" .>> #27) .+ "m_0_8") .+ (("m_0_9" .& #0x07ffffff) .<< #27)) .+ ("m_1_6" .>> #27)) .+ "m_1_7") .+ (("m_1_8" .& #0x07ffffff) .<< #27)) .+ ("m_2_5" .>> #27)) .+ "m_2_6") .+ (("m_2_7" .& #0x07ffffff) .<< #27)) .+ ("m_3_4" .>> #27)) .+ "m_3_5") .+ (("m_3_6" .& #0x07ffffff) .<< #27)) .+ ("m_4_3" .>> #27)) .+ "m_4_4") .+ (("m_4_5" .& #0x07ffffff) .<< #27)) .+ ("m_5_2" .>> #27)) .+ "m_5_3") .+ (("m_5_4" .& #0x07ffffff) .<< #27)) .+ ("m_6_1" .>> #27)) .+ "m_6_2") .+ (("m_6_3" .& #0x07ffffff) .<< #27)) .+ ("m_7_0" .>> #27)) .+ "m_7_1") .+ (("m_7_2" .& #0x07ffffff) .<< #27)) .+ "m_8_0") .+ (("m_8_1" .& #0x07ffffff) .<< #27)) .+ (("m_9_0" .& #0x07ffffff) .<< #27)) .+ "c3";
    (*2146*) "c4" <- "d4" .>> #54;
    (*2147*) "d5" <- ((((((((((((((((((((((((((((((((("m_0_9" .>> #27) .+ "m_0_10") .+ (("m_0_11" .& #0x07ffffff) .<< #27)) .+ ("m_1_8" .>> #27)) .+ "m_1_9") .+ (("m_1_10" .& #0x07ffffff) .<< #27)) .+ ("m_2_7" .>> #27)) .+ "m_2_8") .+ (("m_2_9" .& #0x07ffffff) .<< #27)) .+ ("m_3_6" .>> #27)) .+ "m_3_7") .+ (("m_3_8" .& #0x07ffffff) .<< #27)) .+ ("m_4_5" .>> #27)) .+ "m_4_6") .+ (("m_4_7" .& #0x07ffffff) .<< #27)) .+ ("m_5_4" .>> #27)) .+ "m_5_5") .+ (("m_5_6" .& #0x07ffffff) .<< #27)) .+ ("m_6_3" .>> #27)) .+ "m_6_4") .+ (("m_6_5" .& #0x07ffffff) .<< #27)) .+ ("m_7_2" .>> #27)) .+ "m_7_3") .+ (("m_7_4" .& #0x07ffffff) .<< #27)) .+ ("m_8_1" .>> #27)) .+ "m_8_2") .+ (("m_8_3" .& #0x07ffffff) .<< #27)) .+ ("m_9_0" .>> #27)) .+ "m_9_1") .+ (("m_9_2" .& #0x07ffffff) .<< #27)) .+ "m_10_0") .+ (("m_10_1" .& #0x07ffffff) .<< #27)) .+ (("m_11_0" .& #0x07ffffff) .<< #27)) .+ "c4";
    (*2159*) "c5" <- "d5" .>> #54;
    (*2160*) "d6" <- ((((((((((((((((((((((((((((((((((((((("m_0_11" .>> #27) .+ "m_0_12") .+ (("m_0_13" .& #0x07ffffff) .<< #27)) .+ ("m_1_10" .>> #27)) .+ "m_1_11") .+ (("m_1_12" .& #0x07ffffff) .<< #27)) .+ ("m_2_9" .>> #27)) .+ "m_2_10") .+ (("m_2_11" .& #0x07ffffff) .<< #27)) .+ ("m_3_8" .>> #27)) .+ "m_3_9") .+ (("m_3_10" .& #0x07ffffff) .<< #27)) .+ ("m_4_7" .>> #27)) .+ "m_4_8") .+ (("m_4_9" .& #0x07ffffff) .<< #27)) .+ ("m_5_6" .>> #27)) .+ "m_5_7") .+ (("m_5_8" .& #0x07ffffff) .<< #27)) .+ ("m_6_5" .>> #27)) .+ "m_6_6") .+ (("m_6_7" .& #0x07ffffff) .<< #27)) .+ ("m_7_4" .>> #27)) .+ "m_7_5") .+ (("m_7_6" .& #0x07ffffff) .<< #27)) .+ ("m_8_3" .>> #27)) .+ "m_8_4") .+ (("m_8_5" .& #0x07ffffff) .<< #27)) .+ ("m_9_2" .>> #27)) .+ "m_9_3") .+ (("m_9_4" .& #0x07ffffff) .<< #27)) .+ ("m_10_1" .>> #27)) .+ "m_10_2") .+ (("m_10_3" .& #0x07ffffff) .<< #27)) .+ ("m_11_0" .>> #27)) .+ "m_11_1") .+ (("m_11_2" .& #0x07ffffff) .<< #27)) .+ "m_12_0") .+ (("m_12_1" .& #0x07ffffff) .<< #27)) .+ (("m_13_0" .& #0x07ffffff) .<< #27)) .+ "c5";
    (*2174*) "c6" <- "d6" .>> #54;
    (*2175*) "d7" <- ((((((((((((((((((((((((((((((((((((((((((((("m_0_13" .>> #27) .+ "m_0_14") .+ (("m_0_15" .& #0x07ffffff) .<< #27)) .+ ("m_1_12" .>> #27)) .+ "m_1_13") .+ (("m_1_14" .& #0x07ffffff) .<< #27)) .+ ("m_2_11" .>> #27)) .+ "m_2_12") .+ (("m_2_13" .& #0x07ffffff) .<< #27)) .+ ("m_3_10" .>> #27)) .+ "m_3_11") .+ (("m_3_12" .& #0x07ffffff) .<< #27)) .+ ("m_4_9" .>> #27)) .+ "m_4_10") .+ (("m_4_11" .& #0x07ffffff) .<< #27)) .+ ("m_5_8" .>> #27)) .+ "m_5_9") .+ (("m_5_10" .& #0x07ffffff) .<< #27)) .+ ("m_6_7" .>> #27)) .+ "m_6_8") .+ (("m_6_9" .& #0x07ffffff) .<< #27)) .+ ("m_7_6" .>> #27)) .+ "m_7_7") .+ (("m_7_8" .& #0x07ffffff) .<< #27)) .+ ("m_8_5" .>> #27)) .+ "m_8_6") .+ (("m_8_7" .& #0x07ffffff) .<< #27)) .+ ("m_9_4" .>> #27)) .+ "m_9_5") .+ (("m_9_6" .& #0x07ffffff) .<< #27)) .+ ("m_10_3" .>> #27)) .+ "m_10_4") .+ (("m_10_5" .& #0x07ffffff) .<< #27)) .+ ("m_11_2" .>> #27)) .+ "m_11_3") .+ (("m_11_4" .& #0x07ffffff) .<< #27)) .+ ("m_12_1" .>> #27)) .+ "m_12_2") .+ (("m_12_3" .& #0x07ffffff) .<< #27)) .+ ("m_13_0" .>> #27)) .+ "m_13_1") .+ (("m_13_2" .& #0x07ffffff) .<< #27)) .+ "m_14_0") .+ (("m_14_1" .& #0x07ffffff) .<< #27)) .+ (("m_15_0" .& #0x07ffffff) .<< #27)) .+ "c6";
    (*2191*) "c7" <- "d7" .>> #54;
    (*2192*) "d8" <- ((((((((((((((((((((((((((((((((((((((((((((((((((("m_0_15" .>> #27) .+ "m_0_16") .+ (("m_0_17" .& #0x07ffffff) .<< #27)) .+ ("m_1_14" .>> #27)) .+ "m_1_15") .+ (("m_1_16" .& #0x07ffffff) .<< #27)) .+ ("m_2_13" .>> #27)) .+ "m_2_14") .+ (("m_2_15" .& #0x07ffffff) .<< #27)) .+ ("m_3_12" .>> #27)) .+ "m_3_13") .+ (("m_3_14" .& #0x07ffffff) .<< #27)) .+ ("m_4_11" .>> #27)) .+ "m_4_12") .+ (("m_4_13" .& #0x07ffffff) .<< #27)) .+ ("m_5_10" .>> #27)) .+ "m_5_11") .+ (("m_5_12" .& #0x07ffffff) .<< #27)) .+ ("m_6_9" .>> #27)) .+ "m_6_10") .+ (("m_6_11" .& #0x07ffffff) .<< #27)) .+ ("m_7_8" .>> #27)) .+ "m_7_9") .+ (("m_7_10" .& #0x07ffffff) .<< #27)) .+ ("m_8_7" .>> #27)) .+ "m_8_8") .+ (("m_8_9" .& #0x07ffffff) .<< #27)) .+ ("m_9_6" .>> #27)) .+ "m_9_7") .+ (("m_9_8" .& #0x07ffffff) .<< #27)) .+ ("m_10_5" .>> #27)) .+ "m_10_6") .+ (("m_10_7" .& #0x07ffffff) .<< #27)) .+ ("m_11_4" .>> #27)) .+ "m_11_5") .+ (("m_11_6" .& #0x07ffffff) .<< #27)) .+ ("m_12_3" .>> #27)) .+ "m_12_4") .+ (("m_12_5" .& #0x07ffffff) .<< #27)) .+ ("m_13_2" .>> #27)) .+ "m_13_3") .+ (("m_13_4" .& #0x07ffffff) .<< #27)) .+ ("m_14_1" .>> #27)) .+ "m_14_2") .+ (("m_14_3" .& #0x07ffffff) .<< #27)) .+ ("m_15_0" .>> #27)) .+ "m_15_1") .+ (("m_15_2" .& #0x07ffffff) .<< #27)) .+ "m_16_0") .+ (("m_16_1" .& #0x07ffffff) .<< #27)) .+ (("m_17_0" .& #0x07ffffff) .<< #27)) .+ "c7";
    (*2210*) "c8" <- "d8" .>> #54;
    (*2211*) "d9" <- ((((((((((((((((((((((((((((((((((((((((((((((((((((((("m_0_17" .>> #27) .+ "m_0_18") .+ ("m_1_16" .>> #27)) .+ "m_1_17") .+ (("m_1_18" .& #0x07ffffff) .<< #27)) .+ ("m_2_15" .>> #27)) .+ "m_2_16") .+ (("m_2_17" .& #0x07ffffff) .<< #27)) .+ ("m_3_14" .>> #27)) .+ "m_3_15") .+ (("m_3_16" .& #0x07ffffff) .<< #27)) .+ ("m_4_13" .>> #27)) .+ "m_4_14") .+ (("m_4_15" .& #0x07ffffff) .<< #27)) .+ ("m_5_12" .>> #27)) .+ "m_5_13") .+ (("m_5_14" .& #0x07ffffff) .<< #27)) .+ ("m_6_11" .>> #27)) .+ "m_6_12") .+ (("m_6_13" .& #0x07ffffff) .<< #27)) .+ ("m_7_10" .>> #27)) .+ "m_7_11") .+ (("m_7_12" .& #0x07ffffff) .<< #27)) .+ ("m_8_9" .>> #27)) .+ "m_8_10") .+ (("m_8_11" .& #0x07ffffff) .<< #27)) .+ ("m_9_8" .>> #27)) .+ "m_9_9") .+ (("m_9_10" .& #0x07ffffff) .<< #27)) .+ ("m_10_7" .>> #27)) .+ "m_10_8") .+ (("m_10_9" .& #0x07ffffff) .<< #27)) .+ ("m_11_6" .>> #27)) .+ "m_11_7") .+ (("m_11_8" .& #0x07ffffff) .<< #27)) .+ ("m_12_5" .>> #27)) .+ "m_12_6") .+ (("m_12_7" .& #0x07ffffff) .<< #27)) .+ ("m_13_4" .>> #27)) .+ "m_13_5") .+ (("m_13_6" .& #0x07ffffff) .<< #27)) .+ ("m_14_3" .>> #27)) .+ "m_14_4") .+ (("m_14_5" .& #0x07ffffff) .<< #27)) .+ ("m_15_2" .>> #27)) .+ "m_15_3") .+ (("m_15_4" .& #0x07ffffff) .<< #27)) .+ ("m_16_1" .>> #27)) .+ "m_16_2") .+ (("m_16_3" .& #0x07ffffff) .<< #27)) .+ ("m_17_0" .>> #27)) .+ "m_17_1") .+ (("m_17_2" .& #0x07ffffff) .<< #27)) .+ "m_18_0") .+ (("m_18_1" .& #0x07ffffff) .<< #27)) .+ "c8";
    (*2230*) "c9" <- "d9" .>> #54;
    (*2231*) "d10" <- ((((((((((((((((((((((((((((((((((((((((((((((((((("m_1_18" .>> #27) .+ ("m_2_17" .>> #27)) .+ "m_2_18") .+ ("m_3_16" .>> #27)) .+ "m_3_17") .+ (("m_3_18" .& #0x07ffffff) .<< #27)) .+ ("m_4_15" .>> #27)) .+ "m_4_16") .+ (("m_4_17" .& #0x07ffffff) .<< #27)) .+ ("m_5_14" .>> #27)) .+ "m_5_15") .+ (("m_5_16" .& #0x07ffffff) .<< #27)) .+ ("m_6_13" .>> #27)) .+ "m_6_14") .+ (("m_6_15" .& #0x07ffffff) .<< #27)) .+ ("m_7_12" .>> #27)) .+ "m_7_13") .+ (("m_7_14" .& #0x07ffffff) .<< #27)) .+ ("m_8_11" .>> #27)) .+ "m_8_12") .+ (("m_8_13" .& #0x07ffffff) .<< #27)) .+ ("m_9_10" .>> #27)) .+ "m_9_11") .+ (("m_9_12" .& #0x07ffffff) .<< #27)) .+ ("m_10_9" .>> #27)) .+ "m_10_10") .+ (("m_10_11" .& #0x07ffffff) .<< #27)) .+ ("m_11_8" .>> #27)) .+ "m_11_9") .+ (("m_11_10" .& #0x07ffffff) .<< #27)) .+ ("m_12_7" .>> #27)) .+ "m_12_8") .+ (("m_12_9" .& #0x07ffffff) .<< #27)) .+ ("m_13_6" .>> #27)) .+ "m_13_7") .+ (("m_13_8" .& #0x07ffffff) .<< #27)) .+ ("m_14_5" .>> #27)) .+ "m_14_6") .+ (("m_14_7" .& #0x07ffffff) .<< #27)) .+ ("m_15_4" .>> #27)) .+ "m_15_5") .+ (("m_15_6" .& #0x07ffffff) .<< #27)) .+ ("m_16_3" .>> #27)) .+ "m_16_4") .+ (("m_16_5" .& #0x07ffffff) .<< #27)) .+ ("m_17_2" .>> #27)) .+ "m_17_3") .+ (("m_17_4" .& #0x07ffffff) .<< #27)) .+ ("m_18_1" .>> #27)) .+ "m_18_2") .+ (("m_18_3" .& #0x07ffffff) .<< #27)) .+ "c9";
    (*2249*) "c10" <- "d10" .>> #54;
    (*2250*) "d11" <- ((((((((((((((((((((((((((((((((((((((((((((("m_3_18" .>> #27) .+ ("m_4_17" .>> #27)) .+ "m_4_18") .+ ("m_5_16" .>> #27)) .+ "m_5_17") .+ (("m_5_18" .& #0x07ffffff) .<< #27)) .+ ("m_6_15" .>> #27)) .+ "m_6_16") .+ (("m_6_17" .& #0x07ffffff) .<< #27)) .+ ("m_7_14" .>> #27)) .+ "m_7_15") .+ (("m_7_16" .& #0x07ffffff) .<< #27)) .+ ("m_8_13" .>> #27)) .+ "m_8_14") .+ (("m_8_15" .& #0x07ffffff) .<< #27)) .+ ("m_9_12" .>> #27)) .+ "m_9_13") .+ (("m_9_14" .& #0x07ffffff) .<< #27)) .+ ("m_10_11" .>> #27)) .+ "m_10_12") .+ (("m_10_13" .& #0x07ffffff) .<< #27)) .+ ("m_11_10" .>> #27)) .+ "m_11_11") .+ (("m_11_12" .& #0x07ffffff) .<< #27)) .+ ("m_12_9" .>> #27)) .+ "m_12_10") .+ (("m_12_11" .& #0x07ffffff) .<< #27)) .+ ("m_13_8" .>> #27)) .+ "m_13_9") .+ (("m_13_10" .& #0x07ffffff) .<< #27)) .+ ("m_14_7" .>> #27)) .+ "m_14_8") .+ (("m_14_9" .& #0x07ffffff) .<< #27)) .+ ("m_15_6" .>> #27)) .+ "m_15_7") .+ (("m_15_8" .& #0x07ffffff) .<< #27)) .+ ("m_16_5" .>> #27)) .+ "m_16_6") .+ (("m_16_7" .& #0x07ffffff) .<< #27)) .+ ("m_17_4" .>> #27)) .+ "m_17_5") .+ (("m_17_6" .& #0x07ffffff) .<< #27)) .+ ("m_18_3" .>> #27)) .+ "m_18_4") .+ (("m_18_5" .& #0x07ffffff) .<< #27)) .+ "c10";
    (*2266*) "c11" <- "d11" .>> #54;
    (*2267*) "d12" <- ((((((((((((((((((((((((((((((((((((((("m_5_18" .>> #27) .+ ("m_6_17" .>> #27)) .+ "m_6_18") .+ ("m_7_16" .>> #27)) .+ "m_7_17") .+ (("m_7_18" .& #0x07ffffff) .<< #27)) .+ ("m_8_15" .>> #27)) .+ "m_8_16") .+ (("m_8_17" .& #0x07ffffff) .<< #27)) .+ ("m_9_14" .>> #27)) .+ "m_9_15") .+ (("m_9_16" .& #0x07ffffff) .<< #27)) .+ ("m_10_13" .>> #27)) .+ "m_10_14") .+ (("m_10_15" .& #0x07ffffff) .<< #27)) .+ ("m_11_12" .>> #27)) .+ "m_11_13") .+ (("m_11_14" .& #0x07ffffff) .<< #27)) .+ ("m_12_11" .>> #27)) .+ "m_12_12") .+ (("m_12_13" .& #0x07ffffff) .<< #27)) .+ ("m_13_10" .>> #27)) .+ "m_13_11") .+ (("m_13_12" .& #0x07ffffff) .<< #27)) .+ ("m_14_9" .>> #27)) .+ "m_14_10") .+ (("m_14_11" .& #0x07ffffff) .<< #27)) .+ ("m_15_8" .>> #27)) .+ "m_15_9") .+ (("m_15_10" .& #0x07ffffff) .<< #27)) .+ ("m_16_7" .>> #27)) .+ "m_16_8") .+ (("m_16_9" .& #0x07ffffff) .<< #27)) .+ ("m_17_6" .>> #27)) .+ "m_17_7") .+ (("m_17_8" .& #0x07ffffff) .<< #27)) .+ ("m_18_5" .>> #27)) .+ "m_18_6") .+ (("m_18_7" .& #0x07ffffff) .<< #27)) .+ "c11";
    (*2281*) "c12" <- "d12" .>> #54;
    (*2282*) "d13" <- ((((((((((((((((((((((((((((((((("m_7_18" .>> #27) .+ ("m_8_17" .>> #27)) .+ "m_8_18") .+ ("m_9_16" .>> #27)) .+ "m_9_17") .+ (("m_9_18" .& #0x07ffffff) .<< #27)) .+ ("m_10_15" .>> #27)) .+ "m_10_16") .+ (("m_10_17" .& #0x07ffffff) .<< #27)) .+ ("m_11_14" .>> #27)) .+ "m_11_15") .+ (("m_11_16" .& #0x07ffffff) .<< #27)) .+ ("m_12_13" .>> #27)) .+ "m_12_14") .+ (("m_12_15" .& #0x07ffffff) .<< #27)) .+ ("m_13_12" .>> #27)) .+ "m_13_13") .+ (("m_13_14" .& #0x07ffffff) .<< #27)) .+ ("m_14_11" .>> #27)) .+ "m_14_12") .+ (("m_14_13" .& #0x07ffffff) .<< #27)) .+ ("m_15_10" .>> #27)) .+ "m_15_11") .+ (("m_15_12" .& #0x07ffffff) .<< #27)) .+ ("m_16_9" .>> #27)) .+ "m_16_10") .+ (("m_16_11" .& #0x07ffffff) .<< #27)) .+ ("m_17_8" .>> #27)) .+ "m_17_9") .+ (("m_17_10" .& #0x07ffffff) .<< #27)) .+ ("m_18_7" .>> #27)) .+ "m_18_8") .+ (("m_18_9" .& #0x07ffffff) .<< #27)) .+ "c12";
    (*2294*) "c13" <- "d13" .>> #54;
    (*2295*) "d14" <- ((((((((((((((((((((((((((("m_9_18" .>> #27) .+ ("m_10_17" .>> #27)) .+ "m_10_18") .+ ("m_11_16" .>> #27)) .+ "m_11_17") .+ (("m_11_18" .& #0x07ffffff) .<< #27)) .+ ("m_12_15" .>> #27)) .+ "m_12_16") .+ (("m_12_17" .& #0x07ffffff) .<< #27)) .+ ("m_13_14" .>> #27)) .+ "m_13_15") .+ (("m_13_16" .& #0x07ffffff) .<< #27)) .+ ("m_14_13" .>> #27)) .+ "m_14_14") .+ (("m_14_15" .& #0x07ffffff) .<< #27)) .+ ("m_15_12" .>> #27)) .+ "m_15_13") .+ (("m_15_14" .& #0x07ffffff) .<< #27)) .+ ("m_16_11" .>> #27)) .+ "m_16_12") .+ (("m_16_13" .& #0x07ffffff) .<< #27)) .+ ("m_17_10" .>> #27)) .+ "m_17_11") .+ (("m_17_12" .& #0x07ffffff) .<< #27)) .+ ("m_18_9" .>> #27)) .+ "m_18_10") .+ (("m_18_11" .& #0x07ffffff) .<< #27)) .+ "c13";
    (*2306*) "c14" <- "d14" .>> #54;
    (*2307*) "d15" <- ((((((((((((((((((((("m_11_18" .>> #27) .+ ("m_12_17" .>> #27)) .+ "m_12_18") .+ ("m_13_16" .>> #27)) .+ "m_13_17") .+ (("m_13_18" .& #0x07ffffff) .<< #27)) .+ ("m_14_15" .>> #27)) .+ "m_14_16") .+ (("m_14_17" .& #0x07ffffff) .<< #27)) .+ ("m_15_14" .>> #27)) .+ "m_15_15") .+ (("m_15_16" .& #0x07ffffff) .<< #27)) .+ ("m_16_13" .>> #27)) .+ "m_16_14") .+ (("m_16_15" .& #0x07ffffff) .<< #27)) .+ ("m_17_12" .>> #27)) .+ "m_17_13") .+ (("m_17_14" .& #0x07ffffff) .<< #27)) .+ ("m_18_11" .>> #27)) .+ "m_18_12") .+ (("m_18_13" .& #0x07ffffff) .<< #27)) .+ "c14";
    (*2316*) "c15" <- "d15" .>> #54;
    (*2317*) "d16" <- ((((((((((((((("m_13_18" .>> #27) .+ ("m_14_17" .>> #27)) .+ "m_14_18") .+ ("m_15_16" .>> #27)) .+ "m_15_17") .+ (("m_15_18" .& #0x07ffffff) .<< #27)) .+ ("m_16_15" .>> #27)) .+ "m_16_16") .+ (("m_16_17" .& #0x07ffffff) .<< #27)) .+ ("m_17_14" .>> #27)) .+ "m_17_15") .+ (("m_17_16" .& #0x07ffffff) .<< #27)) .+ ("m_18_13" .>> #27)) .+ "m_18_14") .+ (("m_18_15" .& #0x07ffffff) .<< #27)) .+ "c15";
    (*2324*) "c16" <- "d16" .>> #54;
    (*2325*) "d17" <- ((((((((("m_15_18" .>> #27) .+ ("m_16_17" .>> #27)) .+ "m_16_18") .+ ("m_17_16" .>> #27)) .+ "m_17_17") .+ (("m_17_18" .& #0x07ffffff) .<< #27)) .+ ("m_18_15" .>> #27)) .+ "m_18_16") .+ (("m_18_17" .& #0x07ffffff) .<< #27)) .+ "c16";
    (*2330*) "c17" <- "d17" .>> #54;
    (*2331*) "d18" <- ((("m_17_18" .>> #27) .+ ("m_18_17" .>> #27)) .+ "m_18_18") .+ "c17";
    (*2337*) "l0_0" <- "d0" .& #0x003fffffffffffff;
    (*2338*) "l1_0" <- "d1" .& #0x003fffffffffffff;
    (*2339*) "l2_0" <- "d2" .& #0x003fffffffffffff;
    (*2340*) "l3_0" <- "d3" .& #0x003fffffffffffff;
    (*2341*) "l4_0" <- "d4" .& #0x003fffffffffffff;
    (*2342*) "l5_0" <- "d5" .& #0x003fffffffffffff;
    (*2343*) "l6_0" <- "d6" .& #0x003fffffffffffff;
    (*2344*) "l7_0" <- "d7" .& #0x003fffffffffffff;
    (*2345*) "l8_0" <- "d8" .& #0x003fffffffffffff;
    (*2346*) "l9_0" <- "d9" .& #0x0000000001ffffff;
    (*2349*) "h0_0" <- (("d9" .& #0x003fffffffffffff) .>> #25) .| (("d10" .& #0x0000000001ffffff) .<< #29);
    (*2351*) "h1_0" <- (("d10" .& #0x003fffffffffffff) .>> #25) .| (("d11" .& #0x0000000001ffffff) .<< #29);
    (*2353*) "h2_0" <- (("d11" .& #0x003fffffffffffff) .>> #25) .| (("d12" .& #0x0000000001ffffff) .<< #29);
    (*2355*) "h3_0" <- (("d12" .& #0x003fffffffffffff) .>> #25) .| (("d13" .& #0x0000000001ffffff) .<< #29);
    (*2357*) "h4_0" <- (("d13" .& #0x003fffffffffffff) .>> #25) .| (("d14" .& #0x0000000001ffffff) .<< #29);
    (*2359*) "h5_0" <- (("d14" .& #0x003fffffffffffff) .>> #25) .| (("d15" .& #0x0000000001ffffff) .<< #29);
    (*2361*) "h6_0" <- (("d15" .& #0x003fffffffffffff) .>> #25) .| (("d16" .& #0x0000000001ffffff) .<< #29);
    (*2363*) "h7_0" <- (("d16" .& #0x003fffffffffffff) .>> #25) .| (("d17" .& #0x0000000001ffffff) .<< #29);
    (*2365*) "h8_0" <- (("d17" .& #0x003fffffffffffff) .>> #25) .| (("d18" .& #0x0000000001ffffff) .<< #29);
    (*2367*) "h9_0" <- "d18" .>> #25;
    (*2370*) "hc0_0" <- "h0_0" .* (EInt C_VAL);
    (*2371*) "hc1_0" <- "h1_0" .* (EInt C_VAL);
    (*2372*) "hc2_0" <- "h2_0" .* (EInt C_VAL);
    (*2373*) "hc3_0" <- "h3_0" .* (EInt C_VAL);
    (*2374*) "hc4_0" <- "h4_0" .* (EInt C_VAL);
    (*2375*) "hc5_0" <- "h5_0" .* (EInt C_VAL);
    (*2376*) "hc6_0" <- "h6_0" .* (EInt C_VAL);
    (*2377*) "hc7_0" <- "h7_0" .* (EInt C_VAL);
    (*2378*) "hc8_0" <- "h8_0" .* (EInt C_VAL);
    (*2379*) "hc9_0" <- "h9_0" .* (EInt C_VAL);
    (*2382*) "kin_0" <- "hc9_0" .>> #25;
    (*2383*) "s0_0" <- ("l0_0" .+ "hc0_0") .+ ("kin_0" .* (EInt C_VAL));
    (*2384*) "k0_0" <- "s0_0" .>> #54;
    (*2385*) "s1_0" <- ("l1_0" .+ "hc1_0") .+ "k0_0";
    (*2386*) "k1_0" <- "s1_0" .>> #54;
    (*2387*) "s2_0" <- ("l2_0" .+ "hc2_0") .+ "k1_0";
    (*2388*) "k2_0" <- "s2_0" .>> #54;
    (*2389*) "s3_0" <- ("l3_0" .+ "hc3_0") .+ "k2_0";
    (*2390*) "k3_0" <- "s3_0" .>> #54;
    (*2391*) "s4_0" <- ("l4_0" .+ "hc4_0") .+ "k3_0";
    (*2392*) "k4_0" <- "s4_0" .>> #54;
    (*2393*) "s5_0" <- ("l5_0" .+ "hc5_0") .+ "k4_0";
    (*2394*) "k5_0" <- "s5_0" .>> #54;
    (*2395*) "s6_0" <- ("l6_0" .+ "hc6_0") .+ "k5_0";
    (*2396*) "k6_0" <- "s6_0" .>> #54;
    (*2397*) "s7_0" <- ("l7_0" .+ "hc7_0") .+ "k6_0";
    (*2398*) "k7_0" <- "s7_0" .>> #54;
    (*2399*) "s8_0" <- ("l8_0" .+ "hc8_0") .+ "k7_0";
    (*2400*) "k8_0" <- "s8_0" .>> #54;
    (*2401*) "s9_0" <- ("l9_0" .+ ("hc9_0" .& #0x0000000001ffffff)) .+ "k8_0";
    (*2403*) SSet "self" #0 ("s0_0" .& #0x003fffffffffffff);
    (*2404*) SSet "self" #1 ("s1_0" .& #0x003fffffffffffff);
    (*2405*) SSet "self" #2 ("s2_0" .& #0x003fffffffffffff);
    (*2406*) SSet "self" #3 ("s3_0" .& #0x003fffffffffffff);
    (*2407*) SSet "self" #4 ("s4_0" .& #0x003fffffffffffff);
    (*2408*) SSet "self" #5 ("s5_0" .& #0x003fffffffffffff);
    (*2409*) SSet "self" #6 ("s6_0" .& #0x003fffffffffffff);
    (*2410*) SSet "self" #7 ("s7_0" .& #0x003fffffffffffff);
    (*2411*) SSet "self" #8 ("s8_0" .& #0x003fffffffffffff);
    (*2412*) SSet "self" #9 ("s9_0") ]
    [].

(* src/field/mod_e511_187.rs:2415-2421  PrimeField  F::squared *)
Definition f_squared : func := mkfunc ["self"] [
    (*2416*) "out" <- "self";
    (*2418*) SCall [] "F::square" [AMut "out"] ]
    [EVar "out"].

(* src/field/mod_e511_187.rs:2423-2449  PrimeField  F::invert *)
Definition f_invert : func := mkfunc ["self"] [
    (*2425*) "sqval" <- "self";
    (*2428*) SCall [] "F::square" [AMut "sqval"];
    (*2429*) SCall [] "F::mul_assign(&F)" [AMut "self"; AVal "sqval"];
    (*2432*) SCall [] "F::square" [AMut "sqval"];
    (*2433*) SCall [] "F::square" [AMut "sqval"];
    (*2434*) SCall [] "F::square" [AMut "sqval"];
    (*2435*) SCall [] "F::square" [AMut "sqval"];
    (*2438*) SCall [] "F::square" [AMut "sqval"];
    (*2439*) SCall [] "F::mul_assign(&F)" [AMut "self"; AVal "sqval"];
    (*2442*) SCall [] "F::square" [AMut "sqval"];
    (*2445*) SFor "_" #8 #511 [
      (*2446*) SCall [] "F::square" [AMut "sqval"];
      (*2447*) SCall [] "F::mul_assign(&F)" [AMut "self"; AVal "sqval"] ] ]
    [].

(* src/field/mod_e511_187.rs:2451-2457  PrimeField  F::inverted *)
Definition f_inverted : func := mkfunc ["self"] [
    (*2452*) "out" <- "self";
    (*2454*) SCall [] "F::invert" [AMut "out"] ]
    [EVar "out"].

(* src/field/mod_e511_187.rs:2459-2485  PrimeField  F::legendre *)
Definition f_legendre : func := mkfunc ["self"] [
    (*2463*) SCall ["out"] "F::squared" [AVal "self"];
    (*2464*) "sqval" <- "out";
    (*2467*) SCall [] "F::square" [AMut "sqval"];
    (*2468*) SCall [] "F::square" [AMut "sqval"];
    (*2469*) SCall [] "F::square" [AMut "sqval"];
    (*2472*) SCall [] "F::square" [AMut "sqval"];
    (*2473*) SCall [] "F::mul_assign(&F)" [AMut "out"; AVal "sqval"];
    (*2476*) SCall [] "F::square" [AMut "sqval"];
    (*2479*) SFor "_" #7 #510 [
      (*2480*) SCall [] "F::square" [AMut "sqval"];
      (*2481*) SCall [] "F::mul_assign(&F)" [AMut "out"; AVal "sqval"] ] ]
    [EVar "out"].

(* src/field/mod_e511_187.rs:2487-2517  PrimeField  F::sqrt *)
Definition f_sqrt : func := mkfunc ["self"] [
    (*2489*) "sqval" <- "self";
    (*2490*) "out" <- "self";
    (*2493*) SCall [] "F::square" [AMut "sqval"];
    (*2494*) SCall [] "F::square" [AMut "sqval"];
    (*2497*) SCall [] "F::square" [AMut "sqval"];
    (*2498*) SCall [] "F::mul_assign(&F)" [AMut "out"; AVal "sqval"];
    (*2501*) SCall [] "F::square" [AMut "sqval"];
    (*2504*) SFor "_" #5 #508 [
      (*2505*) SCall [] "F::square" [AMut "sqval"];
      (*2506*) SCall [] "F::mul_assign(&F)" [AMut "out"; AVal "sqval"] ];
    (*2509*) SCall ["coeff"] "F::quartic_legendre" [AVal "self"];
    (*2511*) SCall [] "F::sub_assign(&F)" [AMut "coeff"; AVal (ELit ONE)];
    (*2512*) SCall [] "F::mul_assign(&F)" [AMut "coeff"; AVal (ELit M_HALF)];
    (*2513*) SCall [] "F::mul_assign(&F)" [AMut "coeff"; AVal (ELit COEFF)];
    (*2514*) SCall [] "F::add_assign(&F)" [AMut "coeff"; AVal (ELit ONE)];
    (*2516*) SCall ["%2"] "(&F)::mul(&F)" [AVal "out"; AVal "coeff"] ]
    [EVar "%2"].

(* src/field/mod_e511_187.rs:2519-2564  PrimeField  F::small_add_assign *)
Definition f_small_add_assign : func := mkfunc ["self"; "rhs"] [
    (*2520*) "a0" <- "self".[#0];
    (*2521*) "a1" <- "self".[#1];
    (*2522*) "a2" <- "self".[#2];
    (*2523*) "a3" <- "self".[#3];
    (*2524*) "a4" <- "self".[#4];
    (*2525*) "a5" <- "self".[#5];
    (*2526*) "a6" <- "self".[#6];
    (*2527*) "a7" <- "self".[#7];
    (*2528*) "a8" <- "self".[#8];
    (*2529*) "a9" <- ("self".[#9]) .& #0x0000000001ffffff;
    (*2531*) "b" <- ECast I64 "rhs";
    (*2533*) "cin" <- carry_out "self";
    (*2534*) "s0" <- ("a0" .+ "b") .+ ("cin" .* (EInt C_VAL));
    (*2535*) "c0" <- "s0" .>> #54;
    (*2536*) "s1" <- "a1" .+ "c0";
    (*2537*) "c1" <- "s1" .>> #54;
    (*2538*) "s2" <- "a2" .+ "c1";
    (*2539*) "c2" <- "s2" .>> #54;
    (*2540*) "s3" <- "a3" .+ "c2";
    (*2541*) "c3" <- "s3" .>> #54;
    (*2542*) "s4" <- "a4" .+ "c3";
    (*2543*) "c4" <- "s4" .>> #54;
    (*2544*) "s5" <- "a5" .+ "c4";
    (*2545*) "c5" <- "s5" .>> #54;
    (*2546*) "s6" <- "a6" .+ "c5";
    (*2547*) "c6" <- "s6" .>> #54;
    (*2548*) "s7" <- "a7" .+ "c6";
    (*2549*) "c7" <- "s7" .>> #54;
    (*2550*) "s8" <- "a8" .+ "c7";
    (*2551*) "c8" <- "s8" .>> #54;
    (*2552*) "s9" <- "a9" .+ "c8";
    (*2554*) SSet "self" #0 ("s0" .& #0x003fffffffffffff);
    (*2555*) SSet "self" #1 ("s1" .& #0x003fffffffffffff);
    (*2556*) SSet "self" #2 ("s2" .& #0x003fffffffffffff);
    (*2557*) SSet "self" #3 ("s3" .& #0x003fffffffffffff);
    (*2558*) SSet "self" #4 ("s4" .& #0x003fffffffffffff);
    (*2559*) SSet "self" #5 ("s5" .& #0x003fffffffffffff);
    (*2560*) SSet "self" #6 ("s6" .& #0x003fffffffffffff);
    (*2561*) SSet "self" #7 ("s7" .& #0x003fffffffffffff);
    (*2562*) SSet "self" #8 ("s8" .& #0x003fffffffffffff);
    (*2563*) SSet "self" #9 ("s9") ]
    [].

(* src/field/mod_e511_187.rs:2566-2572  PrimeField  F::small_add *)
Definition f_small_add : func := mkfunc ["self"; "rhs"] [
    (*2567*) "out" <- "self";
    (*2569*) SCall [] "F::small_add_assign" [AMut "out"; AVal "rhs"] ]
    [EVar "out"].

(* src/field/mod_e511_187.rs:2574-2619  PrimeField  F::small_sub_assign *)
Definition f_small_sub_assign : func := mkfunc ["self"; "rhs"] [
    (*2575*) "a0" <- "self".[#0];
    (*2576*) "a1" <- "self".[#1];
    (*2577*) "a2" <- "self".[#2];
    (*2578*) "a3" <- "self".[#3];
    (*2579*) "a4" <- "self".[#4];
    (*2580*) "a5" <- "self".[#5];
    (*2581*) "a6" <- "self".[#6];
    (*2582*) "a7" <- "self".[#7];
    (*2583*) "a8" <- "self".[#8];
    (*2584*) "a9" <- ("self".[#9]) .& #0x0000000001ffffff;
    (*2586*) "b" <- ECast I64 "rhs";
    (*2588*) "cin" <- carry_out "self";
    (*2589*) "s0" <- ("a0" .- "b") .+ ("cin" .* (EInt C_VAL));
    (*2590*) "c0" <- "s0" .>> #54;
    (*2591*) "s1" <- "a1" .+ "c0";
    (*2592*) "c1" <- "s1" .>> #54;
    (*2593*) "s2" <- "a2" .+ "c1";
    (*2594*) "c2" <- "s2" .>> #54;
    (*2595*) "s3" <- "a3" .+ "c2";
    (*2596*) "c3" <- "s3" .>> #54;
    (*2597*) "s4" <- "a4" .+ "c3";
    (*2598*) "c4" <- "s4" .>> #54;
    (*2599*) "s5" <- "a5" .+ "c4";
    (*2600*) "c5" <- "s5" .>> #54;
    (*2601*) "s6" <- "a6" .+ "c5";
    (*2602*) "c6" <- "s6" .>> #54;
    (*2603*) "s7" <- "a7" .+ "c6";
    (*2604*) "c7" <- "s7" .>> #54;
    (*2605*) "s8" <- "a8" .+ "c7";
    (*2606*) "c8" <- "s8" .>> #54;
    (*2607*) "s9" <- "a9" .+ "c8";
    (*2609*) SSet "self" #0 ("s0" .& #0x003fffffffffffff);
    (*2610*) SSet "self" #1 ("s1" .& #0x003fffffffffffff);
    (*2611*) SSet "self" #2 ("s2" .& #0x003fffffffffffff);
    (*2612*) SSet "self" #3 ("s3" .& #0x003fffffffffffff);
    (*2613*) SSet "self" #4 ("s4" .& #0x003fffffffffffff);
    (*2614*) SSet "self" #5 ("s5" .& #0x003fffffffffffff);
    (*2615*) SSet "self" #6 ("s6" .& #0x003fffffffffffff);
    (*2616*) SSet "self" #7 ("s7" .& #0x003fffffffffffff);
    (*2617*) SSet "self" #8 ("s8" .& #0x003fffffffffffff);
    (*2618*) SSet "self" #9 ("s9") ]
    [].

(* src/field/mod_e511_187.rs:2621-2627  PrimeField  F::small_sub *)
Definition f_small_sub : func := mkfunc ["self"; "rhs"] [
    (*2622*) "out" <- "self";
    (*2624*) SCall [] "F::small_sub_assign" [AMut "out"; AVal "rhs"] ]
    [EVar "out"].

(* src/field/mod_e511_187.rs:2629-2703  PrimeField  F::small_mul_assign *)
Definition f_small_mul_assign : func := mkfunc ["self"; "rhs"] [
    (*2630*) "a0" <- ("self".[#0]) .& #0x07ffffff;
    (*2631*) "a1" <- ("self".[#0]) .>> #27;
    (*2632*) "a2" <- ("self".[#1]) .& #0x07ffffff;
    (*2633*) "a3" <- ("self".[#1]) .>> #27;
    (*2634*) "a4" <- ("self".[#2]) .& #0x07ffffff;
    (*2635*) "a5" <- ("self".[#2]) .>> #27;
    (*2636*) "a6" <- ("self".[#3]) .& #0x07ffffff;
    (*2637*) "a7" <- ("self".[#3]) .>> #27;
    (*2638*) "a8" <- ("self".[#4]) .& #0x07ffffff;
    (*2639*) "a9" <- ("self".[#4]) .>> #27;
    (*2640*) "a10" <- ("self".[#5]) .& #0x07ffffff;
    (*2641*) "a11" <- ("self".[#5]) .>> #27;
    (*2642*) "a12" <- ("self".[#6]) .& #0x07ffffff;
    (*2643*) "a13" <- ("self".[#6]) .>> #27;
    (*2644*) "a14" <- ("self".[#7]) .& #0x07ffffff;
    (*2645*) "a15" <- ("self".[#7]) .>> #27;
    (*2646*) "a16" <- ("self".[#8]) .& #0x07ffffff;
    (*2647*) "a17" <- ("self".[#8]) .>> #27;
    (*2648*) "a18" <- "self".[#9];
    (*2650*) "b" <- ECast I64 "rhs";
    (*2652*) "m0" <- "a0" .* "b";
    (*2653*) "m1" <- "a1" .* "b";
    (*2654*) "m2" <- "a2" .* "b";
    (*2655*) "m3" <- "a3" .* "b";
    (*2656*) "m4" <- "a4" .* "b";
    (*2657*) "m5" <- "a5" .* "b";
    (*2658*) "m6" <- "a6" .* "b";
    (*2659*) "m7" <- "a7" .* "b";
    (*2660*) "m8" <- "a8" .* "b";
    (*2661*) "m9" <- "a9" .* "b";
    (*2662*) "m10" <- "a10" .* "b";
    (*2663*) "m11" <- "a11" .* "b";
    (*2664*) "m12" <- "a12" .* "b";
    (*2665*) "m13" <- "a13" .* "b";
    (*2666*) "m14" <- "a14" .* "b";
    (*2667*) "m15" <- "a15" .* "b";
    (*2668*) "m16" <- "a16" .* "b";
    (*2669*) "m17" <- "a17" .* "b";
    (*2670*) "m18" <- "a18" .* "b";
    (*2672*) "cin" <- carry_out "self";
    (*2673*) "d0" <- ("m0" .+ (("m1" .& #0x07ffffff) .<< #27)) .+ ("cin" .* (EInt C_VAL));
    (*2674*) "c0" <- "d0" .>> #54;
    (*2675*) "d1" <- ((("m1" .>> #27) .+ "m2") .+ (("m3" .& #0x07ffffff) .<< #27)) .+ "c0";
    (*2676*) "c1" <- "d1" .>> #54;
    (*2677*) "d2" <- ((("m3" .>> #27) .+ "m4") .+ (("m5" .& #0x07ffffff) .<< #27)) .+ "c1";
    (*2678*) "c2" <- "d2" .>> #54;
    (*2679*) "d3" <- ((("m5" .>> #27) .+ "m6") .+ (("m7" .& #0x07ffffff) .<< #27)) .+ "c2";
    (*2680*) "c3" <- "d3" .>> #54;
    (*2681*) "d4" <- ((("m7" .>> #27) .+ "m8") .+ (("m9" .& #0x07ffffff) .<< #27)) .+ "c3";
    (*2682*) "c4" <- "d4" .>> #54;
    (*2683*) "d5" <- ((("m9" .>> #27) .+ "m10") .+ (("m11" .& #0x07ffffff) .<< #27)) .+ "c4";
    (*2684*) "c5" <- "d5" .>> #54;
    (*2685*) "d6" <- ((("m11" .>> #27) .+ "m12") .+ (("m13" .& #0x07ffffff) .<< #27)) .+ "c5";
    (*2686*) "c6" <- "d6" .>> #54;
    (*2687*) "d7" <- ((("m13" .>> #27) .+ "m14") .+ (("m15" .& #0x07ffffff) .<< #27)) .+ "c6";
    (*2688*) "c7" <- "d7" .>> #54;
    (*2689*) "d8" <- ((("m15" .>> #27) .+ "m16") .+ (("m17" .& #0x07ffffff) .<< #27)) .+ "c7";
    (*2690*) "c8" <- "d8" .>> #54;
    (*2691*) "d9" <- (("m17" .>> #27) .+ "m18") .+ "c8";
    (*2693*) SSet "self" #0 ("d0" .& #0x003fffffffffffff);
    (*2694*) SSet "self" #1 ("d1" .& #0x003fffffffffffff);
    (*2695*) SSet "self" #2 ("d2" .& #0x003fffffffffffff);
    (*2696*) SSet "self" #3 ("d3" .& #0x003fffffffffffff);
    (*2697*) SSet "self" #4 ("d4" .& #0x003fffffffffffff);
    (*2698*) SSet "self" #5 ("d5" .& #0x003fffffffffffff);
    (*2699*) SSet "self" #6 ("d6" .& #0x003fffffffffffff);
    (*2700*) SSet "self" #7 ("d7" .& #0x003fffffffffffff);
    (*2701*) SSet "self" #8 ("d8" .& #0x003fffffffffffff);
    (*2702*) SSet "self" #9 ("d9") ]
    [].

(* src/field/mod_e511_187.rs:2705-2711  PrimeField  F::small_mul *)
Definition f_small_mul : func := mkfunc ["self"; "b"] [
    (*2706*) "out" <- "self";
    (*2708*) SCall [] "F::small_mul_assign" [AMut "out"; AVal "b"] ]
    [EVar "out"].

(* the function table of this file: every non-test function *)
Definition table : list (string * func) := [
  ("F::Debug::fmt", f_Debug_fmt);
  ("F::LowerHex::fmt", f_LowerHex_fmt);
  ("F::UpperHex::fmt", f_UpperHex_fmt);
  ("F::packed", f_packed);
  ("F::quartic_legendre", f_quartic_legendre);
  ("F::neg", f_neg);
  ("F::add_assign(i32)", f_add_assign_i32);
  ("F::add_assign(i16)", f_add_assign_i16);
  ("F::add_assign(i8)", f_add_assign_i8);
  ("F::add_assign(&F)", f_add_assign_ref);
  ("F::add_assign(F)", f_add_assign_val);
  ("i32::add(&F)", f_i32_add_ref);
  ("i16::add(&F)", f_i16_add_ref);
  ("i8::add(&F)", f_i8_add_ref);
  ("(&F)::add(i32)", f_ref_add_i32);
  ("(&F)::add(i16)", f_ref_add_i16);
  ("(&F)::add(i8)", f_ref_add_i8);
  ("F::add(i32)", f_add_i32);
  ("F::add(i16)", f_add_i16);
  ("F::add(i8)", f_add_i8);
  ("(&F)::add(&F)", f_ref_add_ref);
  ("F::add(F)", f_add_val);
  ("F::div_assign(&F)", f_div_assign_ref);
  ("F::div_assign(F)", f_div_assign_val);
  ("(&F)::div(&F)", f_ref_div_ref);
  ("F::div(F)", f_div_val);
  ("F::sub_assign(&F)", f_sub_assign_ref);
  ("F::sub_assign(F)", f_sub_assign_val);
  ("F::sub_assign(i32)", f_sub_assign_i32);
  ("F::sub_assign(i16)", f_sub_assign_i16);
  ("F::sub_assign(i8)", f_sub_assign_i8);
  ("F::sub(i32)", f_sub_i32);
  ("F::sub(i16)", f_sub_i16);
  ("F::sub(i8)", f_sub_i8);
  ("(&F)::sub(&F)", f_ref_sub_ref);
  ("F::sub(F)", f_sub_val);
  ("(&F)::sub(i32)", f_ref_sub_i32);
  ("(&F)::sub(i16)", f_ref_sub_i16);
  ("(&F)::sub(i8)", f_ref_sub_i8);
  ("F::mul_assign(i32)", f_mul_assign_i32);
  ("F::mul_assign(i16)", f_mul_assign_i16);
  ("F::mul_assign(i8)", f_mul_assign_i8);
  ("F::mul_assign(&F)", f_mul_assign_ref);
  ("F::mul_assign(F)", f_mul_assign_val);
  ("i32::mul(&F)", f_i32_mul_ref);
  ("i16::mul(&F)", f_i16_mul_ref);
  ("i8::mul(&F)", f_i8_mul_ref);
  ("(&F)::mul(i32)", f_ref_mul_i32);
  ("(&F)::mul(i16)", f_ref_mul_i16);
  ("(&F)::mul(i8)", f_ref_mul_i8);
  ("F::mul(i32)", f_mul_i32);
  ("F::mul(i16)", f_mul_i16);
  ("F::mul(i8)", f_mul_i8);
  ("(&F)::mul(&F)", f_ref_mul_ref);
  ("F::mul(F)", f_mul_val);
  ("F::rand", f_rand);
  ("F::unpack", f_unpack);
  ("F::unpacked", f_unpacked);
  ("F::pack", f_pack);
  ("F::pack_normalized", f_pack_normalized);
  ("F::nbytes", f_nbytes);
  ("F::normalize", f_normalize);
  ("F::normalize_self_eq", f_normalize_self_eq);
  ("F::normalize_eq", f_normalize_eq);
  ("Mask::fill", f_Mask_fill);
  ("Mask::filled", f_Mask_filled);
  ("F::fill", f_fill);
  ("F::filled", f_filled);
  ("F::nbits", f_nbits);
  ("F::bit_normalized", f_bit_normalized);
  ("F::bit", f_bit);
  ("F::normalize_bitand", f_normalize_bitand);
  ("F::normalize_self_bitand", f_normalize_self_bitand);
  ("F::normalized_bitand", f_normalized_bitand);
  ("F::normalize_bitor", f_normalize_bitor);
  ("F::normalize_self_bitor", f_normalize_self_bitor);
  ("F::normalized_bitor", f_normalized_bitor);
  ("F::zero", f_zero);
  ("F::one", f_one);
  ("F::m_one", f_m_one);
  ("F::modulus", f_modulus);
  ("F::square", f_square);
  ("F::squared", f_squared);
  ("F::invert", f_invert);
  ("F::inverted", f_inverted);
  ("F::legendre", f_legendre);
  ("F::sqrt", f_sqrt);
  ("F::small_add_assign", f_small_add_assign);
  ("F::small_add", f_small_add);
  ("F::small_sub_assign", f_small_sub_assign);
  ("F::small_sub", f_small_sub);
  ("F::small_mul_assign", f_small_mul_assign);
  ("F::small_mul", f_small_mul)].
