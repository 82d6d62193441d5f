(** C67 and C68: looking at values.  The vocabulary is in Fields.v, Machine.v and
    WatchSpec.v. *)
From Coq Require Import ZArith List String.
From Verif Require Import Lang Fields Machine WatchSpec Arith Watch.
Import ListNotations.
Local Open Scope string_scope.
Local Open Scope Z_scope.

(** C67.  Any number of observers, inserted anywhere into a program that keeps
    to the discipline of C26, on variables that can be normalised there, do not
    change what the program computes, although they rewrite the variables: both
    programs run to the end in both builds, the observations that are not the
    inserted ones are the same in the same order, and the variables end
    congruent. *)
Theorem C67_transparent : forall F p m, In F all_fields -> tracks_all F (plain p) [] = Some m -> extras_ok F p [] ->
  exists s t, (forall md, run md F (plain p) start = Ok s) /\ (forall md, run md F (whole p) start = Ok t) /\
    List.length (seen t) = List.length (marks p) /\ kept (marks p) (seen t) = seen s /\
    Forall2 (fun a b => eqmod F (value F a) (value F b)) (vars t) (vars s).
Proof. exact transparent. Qed.
Print Assumptions C67_transparent.
Example C67_case : tracks_all e255_19 (plain watch_example) [] = Some [Tight; Canonical; Loose; Canonical; Canonical] /\ extras_ok e255_19 watch_example [] /\
  marks watch_example = [true; true; true; false; true; false].
Proof.
  split; [vm_compute; reflexivity|]. split; [|reflexivity].
  repeat (cbn [watch_example extras_ok]; first [exact I|split; [reflexivity|split; [vm_compute; discriminate|]]|eexists; split; [vm_compute; reflexivity|]]).
Qed.

(** C68.  Two states whose variables are pairwise congruent, in whatever
    representations the program's operations allow, cannot be told apart: the
    program runs on both, in both builds, adds the same observations, and leaves
    the variables pairwise congruent. *)
Theorem C68_indistinguishable : forall F p m1 m2 n1 n2 s1 s2, In F all_fields ->
  tracks_all F p m1 = Some n1 -> tracks_all F p m2 = Some n2 ->
  Forall2 (has_shape F) m1 (vars s1) -> Forall2 (has_shape F) m2 (vars s2) ->
  Forall2 (fun a b => eqmod F (value F a) (value F b)) (vars s1) (vars s2) ->
  exists t1 t2 obs, (forall md, run md F p s1 = Ok t1) /\ (forall md, run md F p s2 = Ok t2) /\
    seen t1 = (seen s1 ++ obs)%list /\ seen t2 = (seen s2 ++ obs)%list /\
    Forall2 (fun a b => eqmod F (value F a) (value F b)) (vars t1) (vars t2).
Proof. exact indistinguishable. Qed.
Print Assumptions C68_indistinguishable.
Example C68_case :
  let p := [IUn Square 0; IPacked 1; IUn Invert 0; IOp Mul 1 2; IPacked 3]%nat in
  tracks_all e255_19 p [Canonical] = Some [Canonical; Canonical; Fresh; Canonical] /\ tracks_all e255_19 p [Wide] = Some [Wide; Canonical; Fresh; Canonical] /\
  has_shape e255_19 Canonical [19; 0; 0; 0; 0] /\ has_shape e255_19 Wide [0; 0; 0; 0; 2 ^ 31] /\
  eqmod e255_19 (value e255_19 [19; 0; 0; 0; 0]) (value e255_19 [0; 0; 0; 0; 2 ^ 31]).
Proof.
  split; [vm_compute; reflexivity|]. split; [vm_compute; reflexivity|]. split; [split; [show_rep|vm_compute; reflexivity]|].
  split; [show_rep|vm_compute; reflexivity].
Qed.
(** outside the discipline they can: congruent values of the shape that sums,
    differences and products have, with different encodings *)
Theorem C68_two_encodings_refuted : forall F, In F all_fields ->
  exists a b sa sb, produced F a /\ produced F b /\ eqmod F (value F a) (value F b) /\
    run Debug F [IPacked 0] (mkst [a] []) = Ok sa /\ run Debug F [IPacked 0] (mkst [b] []) = Ok sb /\ seen sa <> seen sb.
Proof. exact two_encodings. Qed.
Print Assumptions C68_two_encodings_refuted.
