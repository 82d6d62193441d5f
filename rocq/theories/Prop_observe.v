(** C15-C20, C28-C30, C41, C42: equality, bits, masks, operator forms,
    constants, random elements and text.  The vocabulary is in Fields.v. *)
From Coq Require Import ZArith List String.
From Verif Require Import Lang Fields Arith Forms Encoding Observe Refute.
Import ListNotations.
Local Open Scope string_scope.
Local Open Scope Z_scope.

(** C15.  Equality decides congruence. *)
Theorem C15_eq : forall F a b, In F all_fields -> normal F a -> normal F b ->
  exists r a' b', runs F "F::normalize_eq" [VArr a; VArr b] [r] [VArr a'; VArr b'] /\
    truth (eqmod F (value F a) (value F b)) r /\
    canonical F a' /\ eqmod F (value F a') (value F a) /\ canonical F b' /\ eqmod F (value F b') (value F b).
Proof. exact eq_claim. Qed.
Print Assumptions C15_eq.
Theorem C15_self_eq : forall F a b, In F all_fields -> normal F a -> canonical F b ->
  exists r a', runs F "F::normalize_self_eq" [VArr a; VArr b] [r] [VArr a'; VArr b] /\
    truth (eqmod F (value F a) (value F b)) r /\ canonical F a' /\ eqmod F (value F a') (value F a).
Proof. exact self_eq_claim. Qed.
Print Assumptions C15_self_eq.
Example C15_case : normal e255_19 [5; 0; 0; 0; 2 ^ 32] /\ canonical e255_19 [43; 0; 0; 0; 0] /\
  runs e255_19 "F::normalize_self_eq" [VArr [5; 0; 0; 0; 2 ^ 32]; VArr [43; 0; 0; 0; 0]] [VInt 1] [VArr [43; 0; 0; 0; 0]; VArr [43; 0; 0; 0; 0]] /\
  runs e255_19 "F::normalize_eq" [VArr [5; 0; 0; 0; 0]; VArr [43; 0; 0; 0; 0]] [VInt 0] [VArr [5; 0; 0; 0; 0]; VArr [43; 0; 0; 0; 0]].
Proof. split; [split; [show_rep|vm_compute; discriminate]|]. split; [split; [show_rep|reflexivity]|]. split; show_runs. Qed.

(** C16.  Observing a value never changes its residue: every observer leaves it
    untouched or replaces it by the one canonical representation [a']. *)
Theorem C16_observers : forall F a, In F all_fields -> normal F a ->
  exists a', canonical F a' /\ value F a' = value F a mod modulus F /\
  runs F "F::normalize" [VArr a] [] [VArr a'] /\
  (exists r, runs F "F::packed" [VArr a] [r] [VArr a']) /\
  (forall bs, is_bytes bs -> (fl_nb F <= List.length bs)%nat -> exists r, runs F "F::pack" [VArr a; VArr bs] [] [VArr a'; r]) /\
  (forall i, 0 <= i < nbits F -> exists r, runs F "F::bit" [VArr a; VInt i] [r] [VArr a'; VInt i]) /\
  (forall b, normal F b -> exists r b', runs F "F::normalize_eq" [VArr a; VArr b] [r] [VArr a'; VArr b'] /\
     canonical F b' /\ value F b' = value F b mod modulus F) /\
  (forall b, canonical F b -> exists r, runs F "F::normalize_self_eq" [VArr a; VArr b] [r] [VArr a'; VArr b]) /\
  (forall out, exists r, runs F "F::LowerHex::fmt" [VArr a; VArr out] [] [VArr a; r]) /\
  (forall out, exists r, runs F "F::UpperHex::fmt" [VArr a; VArr out] [] [VArr a; r]).
Proof. exact observers_claim. Qed.
Print Assumptions C16_observers.
Example C16_case : normal e521_1 [1; 0; 0; 0; 0; 0; 0; 0; 0; -1].
Proof. split; [show_rep|vm_compute; discriminate]. Qed.

(** C17.  bit reads the binary digits of the residue; beyond the words it panics. *)
Theorem C17_bit : forall F a i, In F all_fields -> normal F a -> 0 <= i ->
  if i <? fl_w F * Z.of_nat (fl_n F)
  then exists a', runs F "F::bit" [VArr a; VInt i] [VInt (b2z (Z.testbit (value F a mod modulus F) i))] [VArr a'; VInt i] /\
         canonical F a' /\ eqmod F (value F a') (value F a)
  else panics F "F::bit" [VArr a; VInt i].
Proof. exact bit_claim. Qed.
Print Assumptions C17_bit.
Theorem C17_bit_normalized : forall F a i, In F all_fields -> canonical F a -> 0 <= i ->
  if i <? fl_w F * Z.of_nat (fl_n F)
  then runs F "F::bit_normalized" [VArr a; VInt i] [VInt (b2z (Z.testbit (value F a) i))] [VArr a; VInt i]
  else panics F "F::bit_normalized" [VArr a; VInt i].
Proof. exact bit_normalized_claim. Qed.
Print Assumptions C17_bit_normalized.
(** in particular no index below nbits() panics *)
Theorem C17_bits_enough : forall F, In F all_fields -> nbits F <= fl_w F * Z.of_nat (fl_n F).
Proof. exact bits_enough. Qed.
Print Assumptions C17_bits_enough.
Example C17_case : canonical e221_3 [0; 4; 0; 0] /\ runs e221_3 "F::bit" [VArr [0; 4; 0; 0]; VInt 60] [VInt 1] [VArr [0; 4; 0; 0]; VInt 60] /\
  panics e221_3 "F::bit" [VArr [0; 4; 0; 0]; VInt 232].
Proof. split; [split; [show_rep|reflexivity]|]. split; show_runs. Qed.

(** C18.  Masks select, word for word and whatever the words are. *)
Theorem C18_filled : forall F a b, In F all_fields -> List.length a = fl_n F ->
  exists m, runs F "F::filled" [VInt (b2z b)] [VArr m] [VInt (b2z b)] /\
    runs F "Mask::filled" [VInt (b2z b)] [VArr m] [VInt (b2z b)] /\
    runs F "F::fill" [VArr a; VInt (b2z b)] [] [VArr m; VInt (b2z b)] /\
    runs F "Mask::fill" [VArr a; VInt (b2z b)] [] [VArr m; VInt (b2z b)] /\
    m = repeat (if b then -1 else 0) (fl_n F).
Proof. exact fill_claim. Qed.
Print Assumptions C18_filled.
Theorem C18_mask : forall F x b m, In F all_fields -> List.length x = fl_n F ->
  runs F "Mask::filled" [VInt (b2z b)] [VArr m] [VInt (b2z b)] ->
  runs F "F::normalized_bitand" [VArr x; VArr m] [] [VArr (if b then x else repeat 0 (fl_n F)); VArr m].
Proof. exact mask_claim. Qed.
Print Assumptions C18_mask.
Theorem C18_select : forall F x y b m m', In F all_fields -> List.length x = fl_n F -> List.length y = fl_n F ->
  runs F "Mask::filled" [VInt (b2z b)] [VArr m] [VInt (b2z b)] ->
  runs F "Mask::filled" [VInt (b2z (negb b))] [VArr m'] [VInt (b2z (negb b))] ->
  exists x' y', runs F "F::normalized_bitand" [VArr x; VArr m] [] [VArr x'; VArr m] /\
    runs F "F::normalized_bitand" [VArr y; VArr m'] [] [VArr y'; VArr m'] /\
    runs F "F::normalized_bitor" [VArr x'; VArr y'] [] [VArr (if b then x else y); VArr y'].
Proof. exact select_claim. Qed.
Print Assumptions C18_select.
Theorem C18_self_mask : forall F x b m, In F all_fields -> normal F x ->
  runs F "Mask::filled" [VInt (b2z b)] [VArr m] [VInt (b2z b)] ->
  exists o, runs F "F::normalize_self_bitand" [VArr x; VArr m] [] [VArr o; VArr m] /\ canonical F o /\
    value F o = if b then value F x mod modulus F else 0.
Proof. exact self_mask_claim. Qed.
Print Assumptions C18_self_mask.
Example C18_case : runs e221_3 "Mask::filled" [VInt (b2z true)] [VArr [-1; -1; -1; -1]] [VInt (b2z true)] /\
  runs e221_3 "F::normalized_bitand" [VArr [5; 6; 7; -8]; VArr [-1; -1; -1; -1]] [] [VArr [5; 6; 7; -8]; VArr [-1; -1; -1; -1]].
Proof. split; show_runs. Qed.

(** C41.  normalize_bitand cannot be used with a mask: it normalises the mask
    too.  x & filled(true) is not x. *)
Theorem C41_normalize_bitand_mask_refuted : forall F, In F all_fields ->
  exists m x o m', runs F "F::filled" [VInt 1] [VArr m] [VInt 1] /\ runs F "F::m_one" [] [VArr x] [] /\
    runs F "F::normalize_bitand" [VArr x; VArr m] [] [VArr o; VArr m'] /\ ~ eqmod F (value F o) (value F x).
Proof. exact nband_refuted. Qed.
Print Assumptions C41_normalize_bitand_mask_refuted.

(** C42.  Bitwise and/or act on the canonical residues as integers. *)
Theorem C42_bitwise : forall F a b, In F all_fields -> normal F a -> normal F b ->
  (exists o b', runs F "F::normalize_bitand" [VArr a; VArr b] [] [VArr o; VArr b'] /\ tight F o /\
     value F o = Z.land (value F a mod modulus F) (value F b mod modulus F) /\ canonical F b' /\ eqmod F (value F b') (value F b)) /\
  (exists o b', runs F "F::normalize_bitor" [VArr a; VArr b] [] [VArr o; VArr b'] /\ tight F o /\
     value F o = Z.lor (value F a mod modulus F) (value F b mod modulus F) /\ canonical F b' /\ eqmod F (value F b') (value F b)).
Proof. exact bitwise_claim. Qed.
Print Assumptions C42_bitwise.
(** the forms that normalise the receiver only *)
Theorem C42_self_bitwise : forall F a b, In F all_fields -> normal F a -> tight F b ->
  (exists o, runs F "F::normalize_self_bitand" [VArr a; VArr b] [] [VArr o; VArr b] /\ tight F o /\
     value F o = Z.land (value F a mod modulus F) (value F b)) /\
  (exists o, runs F "F::normalize_self_bitor" [VArr a; VArr b] [] [VArr o; VArr b] /\ tight F o /\
     value F o = Z.lor (value F a mod modulus F) (value F b)).
Proof. exact self_bitwise_claim. Qed.
Print Assumptions C42_self_bitwise.
(** the forms that normalise neither act word by word, whatever the words *)
Theorem C42_words : forall F x y, In F all_fields -> List.length x = fl_n F -> List.length y = fl_n F ->
  runs F "F::normalized_bitand" [VArr x; VArr y] [] [VArr (map (fun w => Z.land (fst w) (snd w)) (combine x y)); VArr y] /\
  runs F "F::normalized_bitor" [VArr x; VArr y] [] [VArr (map (fun w => Z.lor (fst w) (snd w)) (combine x y)); VArr y].
Proof. exact words_claim. Qed.
Print Assumptions C42_words.
Example C42_self_case : normal e221_3 [12; 0; 0; 2 ^ 47] /\ tight e221_3 [10; 0; 0; 7] /\
  runs e221_3 "F::normalize_self_bitor" [VArr [12; 0; 0; 2 ^ 47]; VArr [16; 0; 0; 7]] [] [VArr [31; 0; 0; 7]; VArr [16; 0; 0; 7]].
Proof. split; [split; [show_rep|vm_compute; discriminate]|]. split; [show_rep|show_runs]. Qed.
Example C42_case : normal e221_3 [12; 0; 0; 0] /\
  runs e221_3 "F::normalize_bitand" [VArr [12; 0; 0; 0]; VArr [10; 0; 0; 0]] [] [VArr [8; 0; 0; 0]; VArr [10; 0; 0; 0]].
Proof. split; [split; [show_rep|vm_compute; discriminate]|show_runs]. Qed.

(** C19.  All operator forms agree word for word, and panic together. *)
Theorem C19_field_forms : forall F md op a b, In F all_fields -> In op ["add"; "sub"; "mul"; "div"] ->
  assigned md F ("F::" ++ op ++ "_assign(F)") [a; b] = assigned md F ("F::" ++ op ++ "_assign(&F)") [a; b] /\
  returned md F ("(&F)::" ++ op ++ "(&F)") [a; b] = assigned md F ("F::" ++ op ++ "_assign(&F)") [a; b] /\
  returned md F ("F::" ++ op ++ "(F)") [a; b] = assigned md F ("F::" ++ op ++ "_assign(&F)") [a; b].
Proof. exact field_forms. Qed.
Print Assumptions C19_field_forms.
Theorem C19_int_forms : forall F md op t a b, In F all_fields -> In op ["add"; "sub"; "mul"] -> In t ["i32"; "i16"; "i8"] -> is_i32 b ->
  let base := assigned md F ("F::small_" ++ op ++ "_assign") [a; VInt b] in
  returned md F ("F::small_" ++ op) [a; VInt b] = base /\
  assigned md F ("F::" ++ op ++ "_assign(" ++ t ++ ")") [a; VInt b] = base /\
  returned md F ("(&F)::" ++ op ++ "(" ++ t ++ ")") [a; VInt b] = base /\
  returned md F ("F::" ++ op ++ "(" ++ t ++ ")") [a; VInt b] = base.
Proof. exact int_forms. Qed.
Print Assumptions C19_int_forms.
Theorem C19_int_left_forms : forall F md op t a b, In F all_fields -> In op ["add"; "mul"] -> In t ["i32"; "i16"; "i8"] -> is_i32 b ->
  returned md F (t ++ "::" ++ op ++ "(&F)") [VInt b; a] = assigned md F ("F::small_" ++ op ++ "_assign") [a; VInt b].
Proof. exact int_left_forms. Qed.
Print Assumptions C19_int_left_forms.
Theorem C19_unary_forms : forall F md op p a, In F all_fields -> In (op, p) [("squared", "square"); ("inverted", "invert")] ->
  returned md F ("F::" ++ op) [a] = assigned md F ("F::" ++ p) [a].
Proof. exact unary_forms. Qed.
Print Assumptions C19_unary_forms.
Example C19_case : returned Debug e221_3 "F::mul(F)" [VArr [3; 0; 0; 0]; VArr [5; 0; 0; 0]] = Ok (VArr [15; 0; 0; 0]) /\
  returned Debug e221_3 "i8::add(&F)" [VInt (-3); VArr [5; 0; 0; 0]] = Ok (VArr [2; 0; 0; 0]).
Proof. split; vm_compute; reflexivity. Qed.

(** C20.  The constants (primality of the modulus is in Prop_prime.v). *)
Theorem C20_constants : forall F, In F all_fields ->
  exists z o m p, runs F "F::zero" [] [VArr z] [] /\ runs F "F::one" [] [VArr o] [] /\
    runs F "F::m_one" [] [VArr m] [] /\ runs F "F::modulus" [] [VArr p] [] /\
    canonical F z /\ value F z = 0 /\ canonical F o /\ value F o = 1 /\
    canonical F m /\ value F m = modulus F - 1 /\ tight F p /\ value F p = modulus F.
Proof. exact constants_claim. Qed.
Print Assumptions C20_constants.
Theorem C20_sizes : forall F, In F all_fields ->
  exists k n, runs F "F::nbits" [] [VInt k] [] /\ runs F "F::nbytes" [] [VInt n] [] /\
    2 ^ (k - 1) <= modulus F < 2 ^ k /\ 256 ^ (n - 1) <= modulus F < 256 ^ n.
Proof. exact sizes_claim. Qed.
Print Assumptions C20_sizes.
Example C20_case : map modulus all_fields =
  [2 ^ 221 - 3; 2 ^ 222 - 117; 2 ^ 251 - 9; 2 ^ 255 - 19; 2 ^ 382 - 105; 2 ^ 383 - 187; 2 ^ 414 - 17; 2 ^ 511 - 187; 2 ^ 521 - 1].
Proof. vm_compute. reflexivity. Qed.

(** C28.  rand always returns a canonical element, whatever the generator
    yields ([ds] are its outputs; it takes exactly [fl_n F] of them). *)
Theorem C28_rand_canonical : forall F ds, In F all_fields -> (fl_n F <= List.length ds)%nat ->
  exists o, runs F "F::rand" [VArr ds] [VArr o] [VArr (skipn (fl_n F) ds)] /\ canonical F o.
Proof. exact rand_claim. Qed.
Print Assumptions C28_rand_canonical.
Example C28_case : runs e221_3 "F::rand" [VArr [11; 22; 33; 44; 55]] [VArr [11; 22; 33; 44]] [VArr [55]].
Proof. show_runs. Qed.

(** C29.  rand covers the field: false.  -1 is never returned. *)
Theorem C29_rand_covers_refuted : forall F ds m os, In F all_fields -> (fl_n F <= List.length ds)%nat ->
  runs F "F::m_one" [] [VArr m] [] -> ~ runs F "F::rand" [VArr ds] [VArr m] os.
Proof. exact rand_refuted. Qed.
Print Assumptions C29_rand_covers_refuted.
(** exactly the arrays below the modulus word by word are returned *)
Theorem C29_rand_image_partial : forall F l, In F all_fields -> List.length l = fl_n F ->
  (exists (ds : list Z) os, (fl_n F <= List.length ds)%nat /\ runs F "F::rand" [VArr ds] [VArr l] os) <->
  (forall p i, runs F "F::modulus" [] [VArr p] [] -> (i < fl_n F)%nat -> 0 <= nth i l 0 < nth i p 0).
Proof. exact rand_range. Qed.
Print Assumptions C29_rand_image_partial.

(** C30.  Hexadecimal text. *)
Theorem C30_hex : forall F (up : bool) a out, In F all_fields -> normal F a ->
  exists s, runs F (if up then "F::UpperHex::fmt" else "F::LowerHex::fmt") [VArr a; VArr out] [] [VArr a; VArr (out ++ s)%list] /\
    List.length s = (2 * fl_nb F)%nat /\ hex_value up s = Some (value F a mod modulus F).
Proof. exact hex_claim. Qed.
Print Assumptions C30_hex.
Example C30_case : normal e221_3 [171; 0; 0; 0] /\
  runs e221_3 "F::LowerHex::fmt" [VArr [171; 0; 0; 0]; VArr []] [] [VArr [171; 0; 0; 0]; VArr (repeat 48 54 ++ [97; 98])%list].
Proof. split; [split; [show_rep|vm_compute; discriminate]|show_runs]. Qed.
