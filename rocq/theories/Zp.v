(** Congruence mod a prime: inverses and cancellation. *)
From Coq Require Import ZArith Znumtheory Lia.
From Verif Require Import NumTheory.
Local Open Scope Z_scope.

Section Zp.
Variable p : Z.
Hypothesis P : prime p.
Lemma zp_inv a : ~ cong p a 0 -> exists i, cong p (a * i) 1.
Proof.
  intros N. pose proof (prime_ge_2 p P).
  assert (G : rel_prime a p).
  { apply rel_prime_sym, prime_rel_prime; auto. intros D. apply N. unfold cong. now rewrite Z.sub_0_r. }
  destruct (rel_prime_bezout _ _ G) as [u v E]. exists u. apply (cong_intro _ _ _ (- v)). lia.
Qed.
Lemma zp_zero a b : cong p (a * b) 0 -> cong p a 0 \/ cong p b 0.
Proof. unfold cong. rewrite !Z.sub_0_r. now apply prime_mult. Qed.
Lemma zp_one : ~ cong p 1 0.
Proof. unfold cong. rewrite Z.sub_0_r. pose proof (prime_ge_2 p P). intros H1. apply Z.divide_1_r_nonneg in H1; lia. Qed.
Lemma zp_cancel a b c : ~ cong p c 0 -> cong p (c * a) (c * b) -> cong p a b.
Proof. intros N. apply cong_cancel; auto. intros D. apply N. unfold cong. now rewrite Z.sub_0_r. Qed.
End Zp.
