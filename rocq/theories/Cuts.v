(** Overflow checks only ever replace a result by a panic: the semantics of the language. *)
From Coq Require Import ZArith List String Bool.
From Verif Require Import Lang Stmts.
Import ListNotations.
Local Open Scope Z_scope.

(* a run with overflow checks, and the same run without *)
Definition cuts {A} (r r' : res A) : Prop := r = Panic \/ r = r'.
Lemma cuts_refl {A} (r : res A) : cuts r r. Proof. now right. Qed.
Lemma cuts_bind {A B} (r r' : res A) (f g : A -> res B) : cuts r r' -> (forall a, cuts (f a) (g a)) -> cuts (bind r f) (bind r' g).
Proof. intros [-> | ->] H; [now left|]. destruct r'; cbn [bind]; [apply H|apply cuts_refl|apply cuts_refl]. Qed.
Lemma arith_cuts z : cuts (arith Debug z) (arith Release z).
Proof. unfold arith. destruct (in_i64 z); [now right|now left]. Qed.
Lemma uarith_cuts z : cuts (uarith Debug z) (uarith Release z).
Proof. unfold uarith. destruct (_ && _); [now right|now left]. Qed.
Lemma shamt_cuts z : cuts (shamt Debug z) (shamt Release z).
Proof. unfold shamt. destruct (_ && _); [now right|now left]. Qed.
Ltac cut := repeat (first [assumption | apply cuts_refl | apply arith_cuts | apply uarith_cuts | apply shamt_cuts | apply cuts_bind; [|intros] ]).
Lemma eval_cuts e en : cuts (eval Debug e en) (eval Release e en).
Proof. induction e; cbn [eval]; cut. Qed.
Lemma evals_cuts es en : cuts (evals Debug es en) (evals Release es en).
Proof. induction es as [|e t IH]; cbn [evals]; [cut|]. apply cuts_bind; [apply eval_cuts|intros]. cut. Qed.
Lemma eval_args_cuts l en : cuts (eval_args Debug l en) (eval_args Release l en).
Proof.
  induction l as [|a t IH]; cbn [eval_args]; [cut|]. apply cuts_bind; [destruct a; [apply eval_cuts|apply cuts_refl]|intros]. cut.
Qed.
Section Calls.
  Variables c c' : string -> list val -> res (list val * list val).
  Hypothesis H : forall f vs, cuts (c f vs) (c' f vs).
  Lemma exec_cuts s : forall en, cuts (exec Debug c s en) (exec Release c' s en).
  Proof.
    induction s using stmt_rect'; intros en; rewrite ?exec_for; cbn [exec];
      try (apply cuts_bind; [apply cuts_bind; [apply eval_cuts|intros; apply cuts_refl]|intros]); try (cut; fail).
    - apply cuts_bind; [apply eval_cuts|intros; cut].
    - apply cuts_bind; [apply cuts_bind; [apply eval_cuts|intros; apply cuts_refl]|intros]. cut.
    - apply cuts_bind; [apply eval_args_cuts|intros]. apply cuts_bind; [apply H|intros; cut].
    - apply cuts_bind; [apply cuts_bind; [apply eval_cuts|intros; apply cuts_refl]|intros b].
      assert (G : forall e, cuts (exec_list Debug c body e) (exec_list Release c' body e)).
      { induction H0 as [|s t Hs Ht IH]; intros e; cbn [exec_list]; [cut|]. apply cuts_bind; [apply Hs|exact IH]. }
      generalize (Z.to_nat (b - a)). intros n. revert en. generalize a. revert n. induction n as [|n IH]; intros i en; cbn [iter]; [cut|].
      apply cuts_bind; [apply G|intros e; apply IH].
    - apply cuts_bind; [apply cuts_bind; [apply eval_cuts|intros; apply cuts_refl]|intros]. cut.
  Qed.
  Lemma exec_list_cuts l : forall en, cuts (exec_list Debug c l en) (exec_list Release c' l en).
  Proof. induction l as [|s t IH]; intros en; cbn [exec_list]; [cut|]. apply cuts_bind; [apply exec_cuts|exact IH]. Qed.
  Lemma run_cuts fn vs : cuts (run_func Debug c fn vs) (run_func Release c' fn vs).
  Proof.
    unfold run_func. destruct (Nat.eqb _ _); [|cut]. apply cuts_bind; [apply exec_list_cuts|intros en].
    apply cuts_bind; [apply evals_cuts|intros rs; cut].
  Qed.
End Calls.
Lemma call_cuts base tbl fuel : forall f vs, cuts (call Debug base tbl fuel f vs) (call Release base tbl fuel f vs).
Proof.
  induction fuel as [|k IH]; intros f vs; cbn [call]; destruct (lookup f tbl); try apply cuts_refl. now apply run_cuts.
Qed.
Lemma checks_only_panic tbl f vs : rust_call Debug tbl f vs = Panic \/ rust_call Debug tbl f vs = rust_call Release tbl f vs.
Proof. apply call_cuts. Qed.
