(** C25-C27: any history of calls.  The vocabulary is in Fields.v and Machine.v. *)
From Coq Require Import ZArith List String.
From Verif Require Import Lang Fields Machine Arith Refute History Ideal Laws.
Import ListNotations.
Local Open Scope string_scope.
Local Open Scope Z_scope.

(** C25.  Programs of any length: in both builds no call of an allowed program
    panics or overflows, the two builds end in the same state with the same
    observations, and every variable keeps its shape.  Partial: the full
    statement allows any multiplier and any use of a small multiple, and is
    false (below). *)
Theorem C25_no_panic_partial : forall F p m m' s, In F all_fields ->
  allowed_all F p m = Some m' -> Forall2 (marked F) m (vars s) ->
  exists s', (forall md, run md F p s = Ok s') /\ Forall2 (marked F) m' (vars s').
Proof. exact no_panic. Qed.
Print Assumptions C25_no_panic_partial.
Example C25_case : allowed_all e222_117 [IConst One; IConst MinusOne; IOp Sub 0 1; IOp Mul 2 2; IAssign Add 3 2; ISmall SmallMul 3 (-4)%Z;
    IUn Square 4; IOp Div 5 0; ISqrt 6; IPacked 7; IEq 0 1; IRand [1; 2; 3; 4]%Z; IHex true 4; IBit 3 7%Z]%nat [] =
  Some [MReady; MReady; MReady; MReady; MWide; MReady; MReady; MReady; MReady] /\ Forall2 (marked e222_117) [] (vars start).
Proof. split; [vm_compute; reflexivity|constructor]. Qed.
(** in five fields a canonical value times i32::MAX overflows *)
Theorem C25_small_mul_refuted : forall F, In F [e221_3; e222_117; e382_105; e383_187; e521_1] ->
  exists bs u r, runs F "F::unpacked" [VArr bs] [VArr u] [VArr bs] /\ canonical F u /\
    rust_call Debug (fl_tbl F) "F::small_mul" [VArr u; VInt (2 ^ 31 - 1)] = Panic /\
    rust_call Release (fl_tbl F) "F::small_mul" [VArr u; VInt (2 ^ 31 - 1)] = Ok r.
Proof. exact small_mul_panics. Qed.
Print Assumptions C25_small_mul_refuted.
(** in every field squaring a small multiple of a constant overflows *)
Theorem C25_square_refuted : forall F, In F all_fields ->
  exists m k o r, runs F "F::m_one" [] [VArr m] [] /\ is_i32 k /\ computes_small F "mul" m k o /\
    rust_call Debug (fl_tbl F) "F::square" [VArr o] = Panic /\ rust_call Release (fl_tbl F) "F::square" [VArr o] = Ok r.
Proof. exact square_panics. Qed.
Print Assumptions C25_square_refuted.

(** C26.  An expression of any size over decoded inputs, every result being
    normalised, encodes to its value mod p.  [term_ok] keeps to the multipliers
    for which small multiplication is right, and e251_9 to rings. *)
Theorem C26_expressions : forall F inp t, In F all_fields ->
  (forall n, is_bytes (inp n) /\ (fl_nb F <= List.length (inp n))%nat) -> term_ok F t ->
  exists a, (forall md, evaluate md F inp t = Ok a) /\
    runs F "F::packed" [VArr a] [VArr (encode F (term_value F (fun n => bytes_value F (inp n)) t))] [VArr a].
Proof. exact expressions. Qed.
Print Assumptions C26_expressions.
Example C26_expressions_case : term_ok e255_19 (TSub (TMul (TInput 0) (TInt (-5))) (TSquare (TNeg (TScale (TRoot (TInput 1)) 121665)))) /\
  term_ok e251_9 (TPlus (TSub (TScale (TInput 0) 1174) (TInt 5)) (-7)) /\ term_ok e521_1 (TScale (TDiv (TInput 0) (TInv (TSymbol (TInput 1)))) (2 ^ 27)) /\
  term_value e255_19 (fun n => bytes_value e255_19 (repeat 1 32)) (TSub (TInt 3) (TInt 5)) = -2.
Proof.
  split; [|split; [|split; [|reflexivity]]].
  - cbn [term_ok]. unfold is_i32. repeat split; try (vm_compute; discriminate); try (vm_compute; reflexivity); try (intros E; apply (f_equal fl_C) in E; discriminate E).
  - cbn [term_ok]. unfold is_i32. repeat split; try (vm_compute; discriminate); try (vm_compute; reflexivity); try (intros E; apply (f_equal fl_C) in E; discriminate E).
  - cbn [term_ok]. unfold is_i32. repeat split; try (vm_compute; discriminate); try (vm_compute; reflexivity); try (intros E; apply (f_equal fl_C) in E; discriminate E).
    intros _. exists 27. split; [discriminate|reflexivity].
Qed.
(** Without normalising: a program of any length that keeps to the shapes on
    which each operation is right has exactly the observations of its ideal
    execution with integers mod p.  Partial: the full statement has no such
    condition, and is false (C02, C04, C05, C07 refuted). *)
Theorem C26_programs_partial : forall F p m, In F all_fields -> tracks_all F p [] = Some m ->
  exists s i, (forall md, run md F p start = Ok s) /\ ideal F p istart = Some i /\ seen s = iseen i /\
    Forall2 (has_shape F) m (vars s) /\ Forall2 (fun a x => eqmod F (value F a) x) (vars s) (ivars i).
Proof. exact disciplined. Qed.
Print Assumptions C26_programs_partial.
Example C26_programs_case : tracks_all e255_19 [IUnpacked (repeat 255%Z 32); IConst MinusOne; IOp Mul 0 1; IOp Sub 2 1; IOp Mul 3 3; IAssign Add 4 2;
    IUn Invert 4; IOp Mul 4 5; IPacked 6; IEq 0 6; ISmall SmallMul 0 77%Z; IBit 7 3%Z; IHex false 7]%nat [] =
  Some [Canonical; Canonical; Loose; Difference; Fresh; Fresh; Canonical; Canonical].
Proof. vm_compute. reflexivity. Qed.
(** small multiples used without normalising, negative ones too; in e521_1 by powers of two *)
Example C26_multiples_case :
  tracks_all e255_19 [IUnpacked (repeat 255%Z 32); ISmall SmallMul 0 (-8192)%Z; ISmall SmallMul 0 121665%Z; INormalize 2; ISmall SmallMul 2 77%Z; IOp Mul 1 3;
    IUn Invert 3; IOp Div 5 1; IUn Square 1; IPacked 6]%nat [] = Some [Tight; Wide; Canonical; Multiple; Fresh; Fresh; Canonical; Fresh] /\
  tracks_all e521_1 [IUnpacked (repeat 1%Z 66); ISmall SmallMul 0 8192%Z; IOp Mul 1 1; IUn Invert 1; ISmall SmallMul 0 (2 ^ 27)%Z; IPacked 4]%nat [] =
    Some [Tight; Multiple; Fresh; Fresh; Canonical].
Proof. split; vm_compute; reflexivity. Qed.
(** the inverse used by [ideal] is the inverse mod p, and 0 for 0 *)
Theorem C26_inverse : forall F x, In F all_fields ->
  (~ eqmod F x 0 -> eqmod F (inverse F x * x) 1) /\ (eqmod F x 0 -> inverse F x = 0).
Proof. exact inverse_ok. Qed.
Print Assumptions C26_inverse.
Example C26_inverse_case : ~ eqmod e255_19 2 0. Proof. vm_compute. discriminate. Qed.
(** its symbol is 1 on the non-zero squares, minus one on the others, 0 on 0 *)
Theorem C26_symbol : forall F x, In F all_fields ->
  (symbol F x = 1 <-> is_square F x /\ ~ eqmod F x 0) /\ (symbol F x = modulus F - 1 <-> ~ is_square F x) /\ (symbol F x = 0 <-> eqmod F x 0).
Proof. exact symbol_ok. Qed.
Print Assumptions C26_symbol.
Example C26_symbol_case : is_square e255_19 4 /\ ~ eqmod e255_19 4 0. Proof. split; [exists 2; reflexivity|vm_compute; discriminate]. Qed.
(** its root is a root of every number that has one, the one that is itself a
    square when the prime is 3 mod 4 *)
Theorem C26_root : forall F x, In F all_fields ->
  (eqmod F (root F x * root F x) x <-> is_square F x) /\ (modulus F mod 4 = 3 -> is_square F x -> is_square F (root F x)).
Proof. exact root_claim. Qed.
Print Assumptions C26_root.
Example C26_root_case : modulus e414_17 mod 4 = 3 /\ is_square e414_17 9 /\ modulus e383_187 mod 8 = 5.
Proof. split; [reflexivity|]. split; [exists 3; reflexivity|reflexivity]. Qed.
(** a program with random elements, symbols and roots *)
Example C26_roots_case : tracks_all e511_187 [IRand [5; 6; 7; 8; 9; 10; 11; 12; 13; 14; 15]%Z; IUn Square 0; ISqrt 1; IOp Mul 2 2; ILegendre 1;
    IEq 3 1; ISmall SmallMul 0 (-9)%Z; ISqrt 5; IPacked 4]%nat [] = Some [Canonical; Canonical; Fresh; Canonical; Canonical; Wide; Fresh].
Proof. vm_compute. reflexivity. Qed.

(** C27.  Ring laws, observed through encodings, without normalising in
    between.  [ring_safe] includes every decoded value in every field, in
    e222_117 every sum and product of such, and in seven fields every value
    within the head room of multiplication (C65), whatever its sign. *)
Theorem C27_add_comm : forall F, In F all_fields -> forall a b, any_rep F a -> any_rep F b ->
  exists x y bs, computes F "add" a b x /\ computes F "add" b a y /\ encodes F x bs /\ encodes F y bs.
Proof. exact law_add_comm. Qed.
Print Assumptions C27_add_comm.
Theorem C27_add_assoc : forall F, In F all_fields -> forall a b c, any_rep F a -> any_rep F b -> any_rep F c ->
  exists ab abc bc abc' bs, computes F "add" a b ab /\ computes F "add" ab c abc /\ computes F "add" b c bc /\ computes F "add" a bc abc' /\
    encodes F abc bs /\ encodes F abc' bs.
Proof. exact law_add_assoc. Qed.
Print Assumptions C27_add_assoc.
Theorem C27_mul_comm_partial : forall F, In F all_fields -> forall a b, ring_safe F a -> ring_safe F b ->
  exists x y bs, computes F "mul" a b x /\ computes F "mul" b a y /\ encodes F x bs /\ encodes F y bs.
Proof. exact law_mul_comm. Qed.
Print Assumptions C27_mul_comm_partial.
Theorem C27_mul_assoc_partial : forall F, In F all_fields -> forall a b c, ring_safe F a -> ring_safe F b -> ring_safe F c ->
  exists ab abc bc abc' bs, computes F "mul" a b ab /\ computes F "mul" ab c abc /\ computes F "mul" b c bc /\ computes F "mul" a bc abc' /\
    encodes F abc bs /\ encodes F abc' bs.
Proof. exact law_mul_assoc. Qed.
Print Assumptions C27_mul_assoc_partial.
Theorem C27_distrib_partial : forall F, In F all_fields -> forall a b c, ring_safe F a -> ring_safe F b -> ring_safe F c ->
  exists bc x ab ac y bs, computes F "add" b c bc /\ computes F "mul" a bc x /\ computes F "mul" a b ab /\ computes F "mul" a c ac /\
    computes F "add" ab ac y /\ encodes F x bs /\ encodes F y bs.
Proof. exact law_distrib. Qed.
Print Assumptions C27_distrib_partial.
Theorem C27_units_partial : forall F, In F all_fields -> forall a, ring_safe F a -> normal F a ->
  exists zero one s p q bs z, runs F "F::zero" [] [VArr zero] [] /\ runs F "F::one" [] [VArr one] [] /\
    computes F "add" a zero s /\ computes F "mul" a one p /\ computes F "mul" a zero q /\
    encodes F a bs /\ encodes F s bs /\ encodes F p bs /\ encodes F zero z /\ encodes F q z.
Proof. exact law_units. Qed.
Print Assumptions C27_units_partial.
Theorem C27_sub_partial : forall F, In F all_fields -> forall a b, normal F a -> tight F b ->
  exists zero z d s bs, runs F "F::zero" [] [VArr zero] [] /\ computes F "sub" b b z /\ computes F "sub" a b d /\ computes F "add" d b s /\
    (exists zs, encodes F zero zs /\ encodes F z zs) /\ encodes F a bs /\ encodes F s bs.
Proof. exact law_sub. Qed.
Print Assumptions C27_sub_partial.
Theorem C27_square_partial : forall F, In F all_fields -> forall a, ring_safe F a ->
  exists x y bs, computes_unary F "F::square" "F::squared" a x /\ computes F "mul" a a y /\ encodes F x bs /\ encodes F y bs.
Proof. exact law_square. Qed.
Print Assumptions C27_square_partial.
Example C27_case : ring_safe e251_9 [1; 2; 3; 4; 2 ^ 27] /\ ring_safe e255_19 [1; 2; 3; 4; - 2 ^ 44] /\ ring_safe e222_117 [1; 2; 3; 2 ^ 49 + 100] /\ normal e251_9 [1; 2; 3; 4; 2 ^ 27 - 1] /\
  tight e251_9 [1; 2; 3; 4; 2 ^ 27 - 1].
Proof.
  split; [left; show_rep|]. split; [right; right; split; [|split; [|show_rep]]; intros E; apply (f_equal fl_C) in E; discriminate E|].
  split; [right; left; split; [reflexivity|show_rep]|]. split; [split; [show_rep|vm_compute; discriminate]|show_rep].
Qed.
