(** C43: debug text.  The vocabulary is in Fields.v and TextSpec.v. *)
From Coq Require Import ZArith List String.
From Verif Require Import Lang Fields TextSpec DebugFmt Arith Refute.
Import ListNotations.
Local Open Scope string_scope.
Local Open Scope Z_scope.

(** C43.  {:?} appends the type name and every word, in order, and changes nothing else. *)
Theorem C43_debug : forall F nm a out, In (F, nm) named_fields -> is_i64s F a ->
  exists ws, runs F "F::Debug::fmt" [VArr a; VArr out] []
    [VArr a; VArr (out ++ codes (nm ++ ": [ ") ++ joined (codes ", ") ws ++ codes " ]")%list] /\ Forall2 writes_word a ws.
Proof. exact debug_claim. Qed.
Print Assumptions C43_debug.
(** two values with the same debug text have the same words *)
Theorem C43_debug_injective : forall F a b out a' b' s, In F all_fields -> is_i64s F a -> is_i64s F b ->
  runs F "F::Debug::fmt" [VArr a; VArr out] [] [VArr a'; s] -> runs F "F::Debug::fmt" [VArr b; VArr out] [] [VArr b'; s] -> a = b.
Proof. exact debug_inj_claim. Qed.
Print Assumptions C43_debug_injective.
(** every field is named *)
Example C43_names : map fst named_fields = all_fields.
Proof. reflexivity. Qed.
Example C43_case : In (e221_3, "Mod_e221_3") named_fields /\ is_i64s e221_3 [255; 0; 16; -1] /\
  runs e221_3 "F::Debug::fmt" [VArr [255; 0; 16; -1]; VArr []] []
    [VArr [255; 0; 16; -1]; VArr (codes "Mod_e221_3: [ ff, 0, 10, ffffffffffffffff ]")].
Proof.
  split; [left; reflexivity|]. split; [split; [reflexivity|repeat constructor; discriminate]|]. show_runs.
Qed.
