(** Overflow checks only ever replace a result by a panic. *)
From Coq Require Import ZArith List String Bool.
From Verif Require Import Lang Fields Machine EdwardsSpec CurveSpec TraceSpec Trace.
From Verif Require Export Cuts.
Import ListNotations.
Local Open Scope Z_scope.

(** ** Programs *)
Lemma step_cuts F c s : cuts (step Debug F c s) (step Release F c s).
Proof.
  assert (H : forall f vs, cuts (rust_call Debug (fl_tbl F) f vs) (rust_call Release (fl_tbl F) f vs)) by (intros; apply call_cuts).
  destruct c; cbn [step]; unfold new_var, set_var, see, see2, see_text;
    repeat (match goal with |- cuts ?a ?a => apply cuts_refl | |- cuts (bind _ _) (bind _ _) => apply cuts_bind; [|intros] | |- cuts (rust_call _ _ _ _) _ => apply H end).
Qed.
Lemma programs_cut F p : forall s, run Debug F p s = Panic \/ run Debug F p s = run Release F p s.
Proof. induction p as [|c t IH]; intros s; cbn [run]; [now right|]. apply (cuts_bind _ _ _ _ (step_cuts F c s)). exact IH. Qed.
Lemma pstep_cuts C c st : cuts (pstep Debug C c st) (pstep Release C c st).
Proof.
  assert (H : forall f vs, cuts (rust_call Debug (cv_tbl C) f vs) (rust_call Release (cv_tbl C) f vs)) by (intros; apply call_cuts).
  destruct c; cbn [pstep]; unfold new_point, set_point; repeat (match goal with |- cuts ?a ?a => apply cuts_refl | |- cuts (bind _ _) (bind _ _) => apply cuts_bind; [|intros] | |- cuts (rust_call _ _ _ _) _ => apply H end).
Qed.
Lemma point_programs_cut C p : forall st, prun Debug C p st = Panic \/ prun Debug C p st = prun Release C p st.
Proof. induction p as [|c t IH]; intros s; cbn [prun]; [now right|]. apply (cuts_bind _ _ _ _ (pstep_cuts C c s)). exact IH. Qed.
