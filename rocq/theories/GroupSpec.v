(** Vocabulary of C44 (the group law, as users of the point type see it) and
    C45 (the base points and orders the field files publish). *)
From Coq Require Import ZArith List String.
From Verif Require Import Lang Fields EdwardsSpec CurveSpec.
From Verif Require Src_e221_3 Src_e222_117 Src_e251_9 Src_e255_19 Src_e382_105 Src_e383_187 Src_e414_17 Src_e511_187 Src_e521_1.
Import ListNotations.
Local Open Scope Z_scope.
Local Open Scope list_scope.

(** two stored points are the same point of the curve: X/Z and Y/Z agree *)
Definition same_stored (p : Z) (den : val -> Z) (R S : ext) : Prop :=
  ~ eqp p (den (eZ R)) 0 /\ ~ eqp p (den (eZ S)) 0 /\
  eqp p (den (eX R) * den (eZ S)) (den (eX S) * den (eZ R)) /\ eqp p (den (eY R) * den (eZ S)) (den (eY S) * den (eZ R)).

(** R is obtained from the stored point P by additions and doublings in any
    order, n counting how often P goes into it *)
Inductive built (base : string -> list val -> res (list val * list val)) (P : ext) : nat -> ext -> Prop :=
| built_point : built base P 1 P
| built_sum : forall n m R S T, built base P n R -> built base P m S -> sum_calls base R S T -> built base P (n + m) T
| built_double : forall n R T, built base P n R -> double_calls base R T -> built base P (2 * n) T.

(** ** The published constants *)
Record edwards_constants := mkec {
  ec_curve : crv;
  ec_x : list Z; ec_y : list Z; ec_order : list Z;   (* the `pub const`s *)
  ec_x_doc : Z; ec_y_doc : Z; ec_order_doc : Z }.     (* the published values *)
(* src/field/mod_e222_117.rs:63-76.  The comment there gives the order of M-221;
   the published order of E-222 is 2^220 - 181532584069648727485883454223169 *)
Definition E222_constants := mkec E_222 Src_e222_117.E222_BASE_X Src_e222_117.E222_BASE_Y Src_e222_117.E222_ORDER
  0x19b12bb156a389e55c9768c303316d07c23adab3736eb2bc3eb54e51 0x1c (2 ^ 220 - 181532584069648727485883454223169).
(* src/field/mod_e251_9.rs:69-88 *)
Definition Curve1174_constants := mkec Curve1174 Src_e251_9.CURVE1174_BASE_X Src_e251_9.CURVE1174_BASE_Y Src_e251_9.CURVE1174_ORDER
  0x37fbb0cea308c479343aee7c029a190c021d96a492ecd6516123f27bce29eda 0x6b72f82d47fb7cc6656841169840e0c4fe2dee2af3f976ba4ccb1bf9b46360e
  (2 ^ 249 - 11332719920821432534773113288178349711).
(* src/field/mod_e382_105.rs:71-90 *)
Definition E382_constants := mkec E_382 Src_e382_105.E382_BASE_X Src_e382_105.E382_BASE_Y Src_e382_105.E382_ORDER
  0x196f8dd0eab20391e5f05be96e8d20ae68f840032b0b64352923bab85364841193517dbce8105398ebc0cc9470f79603 0x11
  (2 ^ 380 - 1030303207694556153926491950732314247062623204330168346855).
(* src/field/mod_e414_17.rs:69-88 *)
Definition Curve41417_constants := mkec Curve41417 Src_e414_17.CURVE41417_BASE_X Src_e414_17.CURVE41417_BASE_Y Src_e414_17.CURVE41417_ORDER
  0x1a334905141443300218c0631c326e5fcd46369f44c03ec7f57ff35498a4ab4d6d6ba111301a73faa8537c64c4fd3812f3cbc595 0x22
  (2 ^ 411 - 33364140863755142520810177694098385178984727200411208589594759).
(* src/field/mod_e521_1.rs:74-95 *)
Definition E521_constants := mkec E_521 Src_e521_1.E521_BASE_X Src_e521_1.E521_BASE_Y Src_e521_1.E521_ORDER
  0x752cb45c48648b189df90cb2296b2878a3bfd9f42fc6c818ec8bf3c9c0c6203913f6ecc5ccc72434b1ae949d568fc99c6059d0fb13364838aa302a940a2f19ba6c 0xc
  (2 ^ 519 - 337554763258501705789107630418782636071904961214051226618635150085779108655765).
Definition edwards_published : list edwards_constants := [E222_constants; Curve1174_constants; E382_constants; Curve41417_constants; E521_constants].
Definition ec_point (c : edwards_constants) : affine := (value (cv_fld (ec_curve c)) (ec_x c), value (cv_fld (ec_curve c)) (ec_y c)).

(** Montgomery curves y^2 = x^3 + A x^2 + x: the library has constants but no
    curve code for them; A is not in the code *)
Record montgomery_constants := mkmc {
  mc_fld : fld; mc_A : Z;
  mc_x : list Z; mc_y : list Z; mc_order : list Z;
  mc_x_doc : Z; mc_y_doc : Z; mc_order_doc : Z }.
Definition on_montgomery (p A x y : Z) : Prop := eqp p (y * y) (x * x * x + A * x * x + x).
(* src/field/mod_e221_3.rs:68-82 *)
Definition M221_constants := mkmc e221_3 117050 Src_e221_3.M221_BASE_X Src_e221_3.M221_BASE_Y Src_e221_3.M221_ORDER
  0x4 0xf7acdd2a4939571d1cef14eca37c228e61dbff10707dc6c08c5056d (2 ^ 218 + 438651314700378199859927091142747).
(* src/field/mod_e255_19.rs:72-88 *)
Definition Curve25519_constants := mkmc e255_19 486662 Src_e255_19.CURVE25519_BASE_X Src_e255_19.CURVE25519_BASE_Y Src_e255_19.CURVE25519_ORDER
  0x9 0x20ae19a1b8a086b4e01edd2c7748d14c923d4d7e6d7c61b229e9c5a27eced3d9 (2 ^ 252 + 27742317777372353535851937790883648493).
(* src/field/mod_e383_187.rs:76-92 *)
Definition M383_constants := mkmc e383_187 2065150 Src_e383_187.M383_BASE_X Src_e383_187.M383_BASE_Y Src_e383_187.M383_ORDER
  0xc 0x1ec7ed04aaf834af310e304b2da0f328e7c165f0e8988abd3992861290f617aa1f1b2e7d0b6e332e969991b62555e77e
  (2 ^ 380 + 166236275931373516105219794935542153308039234455761613271).
(* src/field/mod_e383_187.rs:94-111 *)
Definition Curve383187_constants := mkmc e383_187 229969 Src_e383_187.CURVE383187_BASE_X Src_e383_187.CURVE383187_BASE_Y Src_e383_187.CURVE383187_ORDER
  0x5 0x1eebe07dc1871896732b12d5504a32370471965c7a11f2c89865f855ab3cbd7c224e3620c31af3370788457dd5ce46df
  (2 ^ 380 + 356080847217269887368687156533236720299699248977882517025).
(* src/field/mod_e511_187.rs:80-100 *)
Definition M511_constants := mkmc e511_187 530438 Src_e511_187.M511_BASE_X Src_e511_187.M511_BASE_Y Src_e511_187.M511_ORDER
  0x5 0x2fbdc0ad8530803d28fdbad354bb488d32399ac1cf8f6e01ee3f96389b90c809422b9429e8a43dbf49308ac4455940abe9f1dbca542093a895e30a64af056fa5
  (2 ^ 508 + 10724754759635747624044531514068121842070756627434833028965540808827675062043).
Definition montgomery_published : list montgomery_constants := [M221_constants; Curve25519_constants; M383_constants; Curve383187_constants; M511_constants].
