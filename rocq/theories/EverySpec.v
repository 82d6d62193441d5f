(** Vocabulary for C61: what normalisation makes of a value, whether or not its
    folded value is negative, and how many bits an encoding holds. *)
From Coq Require Import ZArith List.
From Verif Require Import Lang Fields.
Local Open Scope Z_scope.

(** the integer that the words hold after normalize() (mod_e*.rs, [normalize]:
    the value plus C is folded, and its carry, -1, 0 or 1, times p subtracted):
    the residue if the folded value is not negative, otherwise the folded value,
    less 2 C if it is below -C *)
Definition settled (F : fld) (a : list Z) : Z :=
  if 0 <=? folded F a then value F a mod modulus F
  else if - fl_C F <=? folded F a then folded F a
  else folded F a - 2 * fl_C F.

(** the number of bits that [pack_normalized] writes (mod_e*.rs): those of p, but
    in e383_187, whose last byte is not masked (mod_e383_187.rs), all 384 *)
Definition written_bits (F : fld) : Z := if modulus F =? modulus e383_187 then 384 else nbits F.
