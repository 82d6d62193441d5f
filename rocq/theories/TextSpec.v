(** Vocabulary of the debug-text property. *)
From Coq Require Import ZArith List String.
From Verif Require Import Lang Fields.
Import ListNotations.
Local Open Scope string_scope.
Local Open Scope Z_scope.

(** each field with the name of its Rust type *)
(* src/field/mod_e*.rs, `pub struct Mod_e...` *)
Definition named_fields : list (fld * string) :=
  [(e221_3, "Mod_e221_3"); (e222_117, "Mod_e222_117"); (e251_9, "Mod_e251_9"); (e255_19, "Mod_e255_19");
   (e382_105, "Mod_e382_105"); (e383_187, "Mod_e383_187"); (e414_17, "Mod_e414_17"); (e511_187, "Mod_e511_187");
   (e521_1, "Mod_e521_1")].

(** the texts one after another with a separator in between *)
Fixpoint joined (sep : list Z) (l : list (list Z)) : list Z :=
  match l with [] => [] | [s] => s | s :: t => (s ++ sep ++ joined sep t)%list end.

(** [s] writes the 64-bit two's complement pattern of [z] in lower-case
    hexadecimal without superfluous leading zeros (48 is the code of '0') *)
Definition writes_word (z : Z) (s : list Z) : Prop :=
  hex_value false s = Some (z mod 2 ^ 64) /\ s <> [] /\ (hd 48 s = 48 -> s = [48]).
