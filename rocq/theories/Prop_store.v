(** C66: values written with packed() and read back with unpacked().  The
    vocabulary is in Fields.v, Machine.v, EverySpec.v and Resume.v. *)
From Coq Require Import ZArith List String.
From Verif Require Import Lang Fields Machine EverySpec Resume Arith Refute Store.
Import ListNotations.
Local Open Scope string_scope.
Local Open Scope Z_scope.

(** C66.  A program that keeps to the discipline of C26 is stopped any number of
    times at points where every variable can be normalised.  At each stop all
    variables are encoded, thrown away and decoded again, perhaps by another
    build.  It never panics, sees exactly what the uninterrupted program sees,
    and ends with congruent variables, whatever the builds. *)
Theorem C66_any_point : forall F ps q m, In F all_fields ->
  tracks_all F (List.concat ps ++ q)%list [] = Some m -> storable F ps [] ->
  exists s t, (forall md, run md F (List.concat ps ++ q)%list start = Ok s) /\
    (forall builds last, map snd builds = ps -> resume F builds last q start = Ok t) /\
    seen t = seen s /\ Forall2 (fun a b => eqmod F (value F a) (value F b)) (vars t) (vars s).
Proof. exact any_point. Qed.
Print Assumptions C66_any_point.
Example C66_any_point_case :
  let p1 := [IUnpacked (repeat 255%Z 32); IConst MinusOne; IOp Mul 0 1; IOp Sub 2 1]%nat in
  let p2 := [IOp Mul 3 3; IAssign Add 4 2; IUn Invert 4]%nat in
  let q := [IOp Mul 4 5; IPacked 6; IEq 0 6]%nat in
  tracks_all e255_19 (List.concat [p1; p2] ++ q)%list [] = Some [Canonical; Canonical; Loose; Difference; Fresh; Fresh; Canonical] /\
  storable e255_19 [p1; p2] [].
Proof.
  split; [vm_compute; reflexivity|]. eexists. split; [vm_compute; reflexivity|]. split; [repeat constructor|].
  eexists. split; [vm_compute; reflexivity|]. split; [repeat constructor|exact I].
Qed.
(** the condition at the stops is needed: a disciplined program that is stopped
    while it holds a negative difference sees something else afterwards *)
Theorem C66_negative_refuted : forall F, In F all_fields -> F <> e383_187 -> F <> e521_1 ->
  exists p q m s t, tracks_all F (p ++ q)%list [] = Some m /\ run Debug F (p ++ q)%list start = Ok s /\
    resume F [(Debug, p)] Debug q start = Ok t /\ seen t <> seen s.
Proof. exact stop_refuted. Qed.
Print Assumptions C66_negative_refuted.
Example C66_negative_case : In e255_19 all_fields /\ e255_19 <> e383_187 /\ e255_19 <> e521_1.
Proof. split; [cbn; tauto|]. split; intros E; apply (f_equal fl_C) in E; discriminate E. Qed.

(** One value: a canonical value comes back word for word, and any value comes
    back congruent exactly if its folded value is not negative, or below minus C
    in e383_187. *)
Theorem C66_canonical : forall F a, In F all_fields -> canonical F a -> forall wr rd, reload wr rd F a = Ok a.
Proof. exact reloaded_same. Qed.
Print Assumptions C66_canonical.
Example C66_canonical_case : canonical e255_19 [5; 7; 0; 0; 1].
Proof. split; [show_rep|vm_compute; reflexivity]. Qed.
Theorem C66_normal : forall F a, In F all_fields -> normal F a ->
  exists b, (forall wr rd, reload wr rd F a = Ok b) /\ canonical F b /\ eqmod F (value F b) (value F a).
Proof. exact reloaded. Qed.
Print Assumptions C66_normal.
Example C66_normal_case : normal e255_19 [5; 7; 0; 0; 2 ^ 60].
Proof. split; [show_rep|vm_compute; discriminate]. Qed.
Theorem C66_exactly : forall F a, In F all_fields -> any_rep F a ->
  exists b, (forall wr rd, reload wr rd F a = Ok b) /\ (if nbits F =? 383 then summand F b else tight F b) /\
    (eqmod F (value F b) (value F a) <-> 0 <= folded F a \/ F = e383_187 /\ folded F a < - fl_C F).
Proof. exact reload_every. Qed.
Print Assumptions C66_exactly.
Example C66_exactly_case : any_rep e255_19 [5; 0; 0; 0; - 2 ^ 60] /\ folded e255_19 [5; 0; 0; 0; - 2 ^ 60] < 0.
Proof. split; [show_rep|vm_compute; reflexivity]. Qed.
