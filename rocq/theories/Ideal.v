(** The symbol and the root of the ideal execution (Machine.v) are those of the field. *)
From Coq Require Import ZArith Znumtheory List String Lia Bool Setoid.
From Verif Require Import Lang Fields Kfacts Power Arith NumTheory Primality Primes Roots Chain251 Machine History.
Import ListNotations.
Local Open Scope Z_scope.

Lemma pow_or_251 F : In F all_fields -> In F pow_fields \/ F = e251_9.
Proof. intros H. repeat (destruct H as [<-|H]; [first [now right|left; cbn; tauto]|]). destruct H. Qed.
Lemma euler_any F x : In F all_fields -> ~ eqmod F x 0 ->
  (is_square F x /\ eqmod F (x ^ ((modulus F - 1) / 2)) 1) \/ (~ is_square F x /\ eqmod F (x ^ ((modulus F - 1) / 2)) (-1)).
Proof. intros H. destruct (pow_or_251 F H) as [P|E]; [now apply euler|now apply euler_251]. Qed.
Lemma modulus_big F : In F all_fields -> 8 < modulus F.
Proof. intros H. repeat (destruct H as [<-|H]; [reflexivity|]). destruct H. Qed.

Lemma symbol_ok F x : In F all_fields ->
  (symbol F x = 1 <-> is_square F x /\ ~ eqmod F x 0) /\ (symbol F x = modulus F - 1 <-> ~ is_square F x) /\ (symbol F x = 0 <-> eqmod F x 0).
Proof.
  intros H. pose proof (modulus_big F H) as B8. pose proof (prime_modulus F H) as P. unfold symbol.
  destruct (eqmod_dec F x 0) as [Z0|NZ].
  - assert (E : x ^ ((modulus F - 1) / 2) mod modulus F = 0).
    { assert (Q : eqmod F (x ^ ((modulus F - 1) / 2)) 0); [|unfold eqmod in Q; now rewrite Z.mod_0_l in Q by lia].
      apply eqmod_cong; auto. apply zero_pow; auto; [apply Z.div_str_pos; lia|apply cong0; now apply eqmod_cong]. }
    rewrite E. assert (SQ : is_square F x) by (exists 0; unfold eqmod in *; symmetry; exact Z0).
    split; [|split]; (split; [intros K|intros K]); try lia; try tauto.
  - destruct (euler_any F x H NZ) as [[Q E]|[Q E]]; unfold eqmod in E; rewrite E.
    + rewrite Z.mod_1_l by lia. split; [|split]; (split; [intros K|intros K]); try lia; try tauto.
    + assert (M : -1 mod modulus F = modulus F - 1) by (symmetry; apply (Z.mod_unique _ _ (-1)); lia).
      rewrite M. split; [|split]; (split; [intros K|intros K]); try lia; try tauto.
Qed.

Lemma root_ok F x : In F all_fields -> (eqmod F (root F x * root F x) x <-> is_square F x).
Proof.
  intros H. pose proof (modulus_big F H) as B8. pose proof (prime_modulus F H) as P. split; [intros E; now exists (root F x)|]. intros Q.
  assert (RM : forall z, eqmod F (root F x) z -> eqmod F (z * z) x -> eqmod F (root F x * root F x) x).
  { intros z E V. refine (eq_trans _ V). now apply eqmod_mul. }
  assert (E1 : ~ eqmod F x 0 -> cong (modulus F) (x ^ ((modulus F - 1) / 2)) 1).
  { intros N. apply eqmod_cong; auto. destruct (euler_any F x H N) as [[_ E]|[C _]]; [exact E|contradiction]. }
  assert (D : modulus F mod 4 = 3 \/ In F five_fields).
  { destruct (pow_or_251 F H) as [HP|E]; [|left; now apply three_mod_4_251]. destruct (three_or_five F HP) as [T|T]; [left; now apply three_mod_4|now right]. }
  destruct (eqmod_dec F x 0) as [Z0|NZ].
  - apply (RM 0); [|unfold eqmod in *; symmetry; exact Z0]. unfold root, eqmod. cbv zeta.
    assert (PZ : forall e, 0 < e -> cong (modulus F) (x ^ e) 0) by (intros e He; apply zero_pow; auto; apply cong0; now apply eqmod_cong).
    destruct (_ =? 3) eqn:M; rewrite Z.mod_mod by lia; apply eqmod_cong; auto.
    + apply PZ. apply Z.div_str_pos. lia.
    + rewrite (PZ ((modulus F + 3) / 8)) by (apply Z.div_str_pos; lia). reflexivity.
  - destruct D as [M|T].
    + apply (RM (x ^ ((modulus F + 1) / 4))).
      * unfold root. rewrite M. cbn [Z.eqb Pos.eqb]. unfold eqmod. now rewrite Z.mod_mod by lia.
      * apply eqmod_cong; auto. apply root_3_mod_4; auto. lia.
    + pose proof (five_mod_8 F T) as M8. pose proof (Z.div_mod (modulus F) 8 ltac:(lia)) as D8. rewrite M8 in D8.
      assert (M4 : modulus F mod 4 = 1) by (symmetry; apply (Z.mod_unique _ _ (2 * (modulus F / 8) + 1)); lia).
      set (h := (modulus F + 1) / 2). assert (H2 : 2 * h = modulus F + 1).
      { unfold h. assert ((modulus F + 1) / 2 = 4 * (modulus F / 8) + 3) as ->; [|lia]. symmetry. apply (Z.div_unique _ _ _ 0); lia. }
      assert (H1 : cong (modulus F) (h * 2) 1) by (exists 1; lia).
      pose proof (minus_one_root_ok F H T) as MI. pose proof (sqrt_m1_ok F T) as I. rewrite MI in I.
      destruct (root_5_mod_8 (modulus F) x (minus_one_root F) P M8 I (E1 NZ)) as [[Q1 R1]|[Q1 R1]].
      * apply (RM (x ^ ((modulus F + 3) / 8))); [|now apply eqmod_cong]. unfold root. cbv zeta. rewrite M4. cbn [Z.eqb Pos.eqb]. unfold eqmod. rewrite Z.mod_mod by lia.
        apply eqmod_cong; auto. fold h. rewrite Q1.
        replace (x ^ ((modulus F + 3) / 8) * h * (1 + 1 + (1 - 1) * minus_one_root F)) with (x ^ ((modulus F + 3) / 8) * (h * 2)) by ring.
        rewrite H1. apply cong_eq. ring.
      * apply (RM (x ^ ((modulus F + 3) / 8) * minus_one_root F)); [|now apply eqmod_cong]. unfold root. cbv zeta. rewrite M4. cbn [Z.eqb Pos.eqb]. unfold eqmod. rewrite Z.mod_mod by lia.
        apply eqmod_cong; auto. fold h. rewrite Q1.
        replace (x ^ ((modulus F + 3) / 8) * h * (1 + -1 + (1 - -1) * minus_one_root F)) with (x ^ ((modulus F + 3) / 8) * minus_one_root F * (h * 2)) by ring.
        rewrite H1. apply cong_eq. ring.
Qed.
(** of the two roots, a prime that is 3 mod 4 gives the one that is a square *)
Lemma root_square F x : In F all_fields -> modulus F mod 4 = 3 -> is_square F x -> is_square F (root F x).
Proof.
  intros H M Q. destruct Q as [y Y]. pose proof (modulus_big F H) as B8. exists (y ^ ((modulus F + 1) / 4)).
  unfold root. rewrite M. cbn [Z.eqb Pos.eqb]. unfold eqmod at 1. rewrite Z.mod_mod by lia. apply eqmod_cong; auto.
  rewrite <- Z.pow_mul_l. apply cong_pow. now apply eqmod_cong.
Qed.
Lemma root_claim F x : In F all_fields ->
  (eqmod F (root F x * root F x) x <-> is_square F x) /\ (modulus F mod 4 = 3 -> is_square F x -> is_square F (root F x)).
Proof. intros H. split; [now apply root_ok|]. intros. now apply root_square. Qed.
