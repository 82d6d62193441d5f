(** C08-C14: normalisation and byte encodings.  The vocabulary is in Fields.v. *)
From Coq Require Import ZArith List String.
From Verif Require Import Lang Fields Arith Encoding Observe Refute.
Import ListNotations.
Local Open Scope string_scope.
Local Open Scope Z_scope.

(** C08.  normalize yields the canonical residue.  Partial: the full statement is
    for every [produced] value; it is false of some negative ones (below). *)
Theorem C08_normalize_partial : forall F a, In F all_fields -> normal F a ->
  exists o, runs F "F::normalize" [VArr a] [] [VArr o] /\ canonical F o /\ value F o = value F a mod modulus F.
Proof. exact normalize_claim. Qed.
Print Assumptions C08_normalize_partial.
Example C08_case : normal e255_19 [5; 0; 0; 0; 2 ^ 32] /\ runs e255_19 "F::normalize" [VArr [5; 0; 0; 0; 2 ^ 32]] [] [VArr [43; 0; 0; 0; 0]].
Proof. split; [split; [show_rep|vm_compute; discriminate]|show_runs]. Qed.
(** all non-negative values are [normal], and so is a difference of such a value
    and a canonical one *)
Theorem C08_domain : forall F a b, In F all_fields ->
  (rep F 0 (2 ^ 63 - 1) a -> normal F a) /\
  (rep F (- 2 ^ fl_tb F + 1) (2 ^ 63 - 1) a -> normal F a) /\
  (normal F a -> canonical F b -> exists d, computes F "sub" a b d /\ normal F d).
Proof. exact normal_domain. Qed.
Print Assumptions C08_domain.
Example C08_domain_case : rep e221_3 0 (2 ^ 63 - 1) [0; 0; 0; 2 ^ 60] /\ canonical e221_3 [1; 0; 0; 0].
Proof. split; [show_rep|]. split; [show_rep|reflexivity]. Qed.
(** 0 - u for u read from bytes but not reduced *)
Theorem C08_normalize_refuted : forall F, In F all_fields -> F <> e521_1 ->
  exists bs u zero d o, runs F "F::unpacked" [VArr bs] [VArr u] [VArr bs] /\ runs F "F::zero" [] [VArr zero] [] /\
    computes F "sub" zero u d /\ runs F "F::normalize" [VArr d] [] [VArr o] /\
    tight F u /\ eqmod F (value F d) (- value F u) /\ value F o < 0 /\ ~ canonical F o.
Proof. exact normalize_refuted. Qed.
Print Assumptions C08_normalize_refuted.
(** in e521_1: 0 - (0 - 1) *)
Theorem C08_normalize_521_refuted : forall F, F = e521_1 ->
  exists zero one b d o, runs F "F::zero" [] [VArr zero] [] /\ runs F "F::one" [] [VArr one] [] /\
    computes F "sub" zero one b /\ computes F "sub" zero b d /\ runs F "F::normalize" [VArr d] [] [VArr o] /\
    value F o < 0 /\ ~ canonical F o.
Proof. exact normalize_refuted_521. Qed.
Print Assumptions C08_normalize_521_refuted.

(** C09.  Exactly which representations normalize handles; it never panics. *)
Theorem C09_normalize_domain : forall F a, In F all_fields -> any_rep F a ->
  exists o, runs F "F::normalize" [VArr a] [] [VArr o] /\
    (canonical F o <-> 0 <= folded F a) /\
    (0 <= folded F a -> value F o = value F a mod modulus F) /\
    (folded F a < 0 -> value F o < 0).
Proof. exact normalize_sharp. Qed.
Print Assumptions C09_normalize_domain.
Example C09_case : any_rep e255_19 [5; 0; 0; 0; - 2 ^ 31] /\ folded e255_19 [5; 0; 0; 0; - 2 ^ 31] < 0 /\
  0 <= folded e255_19 [19; 0; 0; 0; - 2 ^ 31].
Proof. split; [show_rep|]. split; [reflexivity|vm_compute; discriminate]. Qed.

(** C10.  Decoding is little-endian, ignores the rest of the slice, and drops
    what exceeds the bit length (e383_187 keeps the 384th bit). *)
Theorem C10_unpack : forall F l bs, In F all_fields -> is_i64s F l -> is_bytes bs -> (fl_nb F <= List.length bs)%nat ->
  exists o, runs F "F::unpack" [VArr l; VArr bs] [] [VArr o; VArr bs] /\
    runs F "F::unpacked" [VArr bs] [VArr o] [VArr bs] /\
    (F <> e383_187 -> value F o = le_value (firstn (fl_nb F) bs) mod 2 ^ nbits F /\ tight F o) /\
    (F = e383_187 -> value F o = le_value (firstn (fl_nb F) bs) /\ summand F o).
Proof. exact unpack_claim. Qed.
Print Assumptions C10_unpack.
Example C10_case : runs e221_3 "F::unpacked" [VArr (1 :: 2 :: repeat 0 26 ++ [99])%list] [VArr [513; 0; 0; 0]] [VArr (1 :: 2 :: repeat 0 26 ++ [99])%list].
Proof. show_runs. Qed.

(** C11.  Encoding writes exactly the canonical little-endian bytes. *)
Theorem C11_pack : forall F a bs, In F all_fields -> normal F a -> is_bytes bs -> (fl_nb F <= List.length bs)%nat ->
  exists a', runs F "F::pack" [VArr a; VArr bs] [] [VArr a'; VArr (encode F (value F a) ++ skipn (fl_nb F) bs)%list] /\
    runs F "F::packed" [VArr a] [VArr (encode F (value F a))] [VArr a'] /\
    canonical F a' /\ value F a' = value F a mod modulus F.
Proof. exact pack_claim. Qed.
Print Assumptions C11_pack.
(** what [encode] is *)
Theorem C11_encode : forall F z, In F all_fields ->
  List.length (encode F z) = fl_nb F /\ is_bytes (encode F z) /\ le_value (encode F z) = z mod modulus F.
Proof. exact encode_claim. Qed.
Print Assumptions C11_encode.
Example C11_case : normal e221_3 [513; 0; 0; 0] /\
  runs e221_3 "F::pack" [VArr [513; 0; 0; 0]; VArr (repeat 7 30)] [] [VArr [513; 0; 0; 0]; VArr (1 :: 2 :: repeat 0 26 ++ [7; 7])%list].
Proof. split; [split; [show_rep|vm_compute; discriminate]|show_runs]. Qed.

(** pack_normalized writes the integer the words spell, reduced or not, leaves
    the words alone, and panics on a short slice *)
Theorem C11_pack_normalized : forall F a bs, In F all_fields -> tight F a -> is_bytes bs ->
  if (List.length bs <? fl_nb F)%nat then panics F "F::pack_normalized" [VArr a; VArr bs]
  else exists ws, runs F "F::pack_normalized" [VArr a; VArr bs] [] [VArr a; VArr (ws ++ skipn (fl_nb F) bs)%list] /\
    is_bytes ws /\ List.length ws = fl_nb F /\ le_value ws = value F a.
Proof. exact pack_normalized_claim. Qed.
Print Assumptions C11_pack_normalized.
Example C11_pack_normalized_case : tight e221_3 [513; 0; 0; 0] /\
  runs e221_3 "F::pack_normalized" [VArr [513; 0; 0; 0]; VArr (repeat 7 30)] [] [VArr [513; 0; 0; 0]; VArr (1 :: 2 :: repeat 0 26 ++ [7; 7])%list] /\
  panics e221_3 "F::pack_normalized" [VArr [513; 0; 0; 0]; VArr (repeat 7 27)].
Proof. split; [show_rep|]. split; show_runs. Qed.

(** C12.  Decoding and encoding are inverse. *)
Theorem C12_decode_encode : forall F a, In F all_fields -> normal F a ->
  exists bs a' o, runs F "F::packed" [VArr a] [VArr bs] [VArr a'] /\ runs F "F::unpacked" [VArr bs] [VArr o] [VArr bs] /\
    canonical F o /\ eqmod F (value F o) (value F a).
Proof. exact round_trip_value. Qed.
Print Assumptions C12_decode_encode.
Theorem C12_encode_decode : forall F bs, In F all_fields -> is_bytes bs -> List.length bs = fl_nb F -> le_value bs < 2 ^ nbits F ->
  exists o a', runs F "F::unpacked" [VArr bs] [VArr o] [VArr bs] /\
    runs F "F::packed" [VArr o] [VArr (encode F (le_value bs))] [VArr a'] /\
    (le_value bs < modulus F -> encode F (le_value bs) = bs).
Proof. exact round_trip_bytes. Qed.
Print Assumptions C12_encode_decode.
Example C12_case : normal e521_1 [1; 0; 0; 0; 0; 0; 0; 0; 0; -1] /\ le_value (repeat 17 28) < modulus e221_3.
Proof. split; [split; [show_rep|vm_compute; discriminate]|reflexivity]. Qed.

(** C13.  Encodings identify residues. *)
Theorem C13_encodings : forall F a b, In F all_fields -> normal F a -> normal F b ->
  exists ba a' bb b', runs F "F::packed" [VArr a] [VArr ba] [VArr a'] /\ runs F "F::packed" [VArr b] [VArr bb] [VArr b'] /\
    (ba = bb <-> eqmod F (value F a) (value F b)).
Proof. exact encodings_identify. Qed.
Print Assumptions C13_encodings.
Example C13_case : normal e255_19 [5; 0; 0; 0; 2 ^ 32] /\ normal e255_19 [43; 0; 0; 0; 0] /\
  eqmod e255_19 (value e255_19 [5; 0; 0; 0; 2 ^ 32]) (value e255_19 [43; 0; 0; 0; 0]).
Proof. split; [split; [show_rep|vm_compute; discriminate]|]. split; [split; [show_rep|vm_compute; discriminate]|reflexivity]. Qed.

(** C14.  Short buffers panic, long ones never do, whatever the value. *)
Theorem C14_buffers : forall F a l bs, In F all_fields -> any_rep F a -> is_i64s F l -> is_bytes bs ->
  if (List.length bs <? fl_nb F)%nat
  then panics F "F::pack" [VArr a; VArr bs] /\ panics F "F::unpack" [VArr l; VArr bs] /\ panics F "F::unpacked" [VArr bs]
  else (exists rs os, runs F "F::pack" [VArr a; VArr bs] rs os) /\ (exists rs os, runs F "F::unpack" [VArr l; VArr bs] rs os) /\
       (exists rs os, runs F "F::unpacked" [VArr bs] rs os).
Proof. exact buffers_claim. Qed.
Print Assumptions C14_buffers.
Example C14_case : panics e221_3 "F::unpacked" [VArr (repeat 0 27)] /\ exists o, runs e221_3 "F::unpacked" [VArr (repeat 0 28)] o [VArr (repeat 0 28)].
Proof. split; [show_runs|]. exists [VArr [0; 0; 0; 0]]. show_runs. Qed.
