(** What the powers computed by the library mean: inverses, quotients,
    Legendre symbols and square roots. *)
From Coq Require Import ZArith Znumtheory List String Lia Bool Setoid.
From Verif Require Import Lang Poly Kernel Fields Kfacts Ops Words Codec Normalize Methods Surface Forms Power Arith NumTheory Primality Primes.
Import ListNotations.
Local Open Scope string_scope.
Local Open Scope Z_scope.

Lemma prime_modulus F : In F all_fields -> prime (modulus F).
Proof.
  intros H. repeat (destruct H as [<-|H]).
  - replace (modulus e221_3) with (2 ^ Z.of_nat 221 - 3) by (vm_compute; reflexivity). exact prime_221_3.
  - replace (modulus e222_117) with (2 ^ Z.of_nat 222 - 117) by (vm_compute; reflexivity). exact prime_222_117.
  - replace (modulus e251_9) with (2 ^ Z.of_nat 251 - 9) by (vm_compute; reflexivity). exact prime_251_9.
  - replace (modulus e255_19) with (2 ^ Z.of_nat 255 - 19) by (vm_compute; reflexivity). exact prime_255_19.
  - replace (modulus e382_105) with (2 ^ Z.of_nat 382 - 105) by (vm_compute; reflexivity). exact prime_382_105.
  - replace (modulus e383_187) with (2 ^ Z.of_nat 383 - 187) by (vm_compute; reflexivity). exact prime_383_187.
  - replace (modulus e414_17) with (2 ^ Z.of_nat 414 - 17) by (vm_compute; reflexivity). exact prime_414_17.
  - replace (modulus e511_187) with (2 ^ Z.of_nat 511 - 187) by (vm_compute; reflexivity). exact prime_511_187.
  - replace (modulus e521_1) with (2 ^ Z.of_nat 521 - 1) by (vm_compute; reflexivity). exact prime_521_1.
  - destruct H.
Qed.
Lemma modulus_nz F : In F all_fields -> modulus F <> 0.
Proof. intros H. pose proof (prime_ge_2 _ (prime_modulus F H)). lia. Qed.
Lemma eqmod_cong F a b : In F all_fields -> eqmod F a b <-> cong (modulus F) a b.
Proof. intros H. symmetry. apply cong_mod_eq, modulus_nz, H. Qed.
Lemma is_square_mod F x : In F all_fields -> is_square F x <-> sq_mod (modulus F) x.
Proof. intros H. split; intros [y Y]; exists y; now apply eqmod_cong. Qed.
Lemma odd_modulus F : In F all_fields -> modulus F mod 2 = 1.
Proof.
  intros H. assert (K : forallb (fun F => modulus F mod 2 =? 1) all_fields = true) by (vm_compute; reflexivity).
  apply Z.eqb_eq. exact (proj1 (forallb_forall _ _) K F H).
Qed.
Lemma three_mod_4 F : In F three_fields -> modulus F mod 4 = 3.
Proof.
  intros H. assert (K : forallb (fun F => modulus F mod 4 =? 3) three_fields = true) by (vm_compute; reflexivity).
  apply Z.eqb_eq. exact (proj1 (forallb_forall _ _) K F H).
Qed.
Lemma five_mod_8 F : In F five_fields -> modulus F mod 8 = 5.
Proof.
  intros H. assert (K : forallb (fun F => modulus F mod 8 =? 5) five_fields = true) by (vm_compute; reflexivity).
  apply Z.eqb_eq. exact (proj1 (forallb_forall _ _) K F H).
Qed.
Lemma three_or_five F : In F pow_fields -> In F three_fields \/ In F five_fields.
Proof. cbn. tauto. Qed.
Lemma safe_pow F a : In F all_fields -> pow_safe F a -> In F pow_fields.
Proof.
  intros H P. assert (N : F <> e251_9).
  { destruct P as [[E _]|[_ [N _]]]; [|exact N]. intros E'. rewrite E in E'. apply (f_equal fl_C) in E'. discriminate E'. }
  cbn in *. intuition congruence.
Qed.
Lemma sqrt_m1_ok F : In F five_fields -> cong (modulus F) (sqrt_m1 F * sqrt_m1 F) (-1).
Proof.
  intros H. pose proof (proj1 (forallb_forall _ _) sqrt5_checked F H) as K. unfold sqrt5_ok in K. rewrite !andb_true_iff in K.
  destruct K as ((((_ & _) & K7) & _) & _) || destruct K as ((((((((_ & _) & _) & _) & _) & _) & K7) & _) & _).
  apply Z.eqb_eq in K7. unfold sqrt_m1. apply Z.mod_divide in K7; [|apply modulus_nz, pow_all, five_pow, H].
  unfold cong. rewrite Z.pow_2_r in K7. replace ((value F (coeff_lit F) + 1) * (value F (coeff_lit F) + 1) - -1) with
    ((value F (coeff_lit F) + 1) * (value F (coeff_lit F) + 1) + 1) by ring. exact K7.
Qed.

(** Euler's criterion for the eight fields *)
Lemma euler F x : In F pow_fields -> ~ eqmod F x 0 ->
  (is_square F x /\ eqmod F (x ^ ((modulus F - 1) / 2)) 1) \/ (~ is_square F x /\ eqmod F (x ^ ((modulus F - 1) / 2)) (-1)).
Proof.
  intros HP X. pose proof (pow_all F HP) as H. pose proof (prime_modulus F H) as P. pose proof (prime_ge_2 _ P) as P2.
  pose proof (odd_modulus F H) as O.
  assert (D : ~ (modulus F | x)) by (intros D; apply X, eqmod_cong, div0; auto).
  assert (P3 : 2 < modulus F) by (destruct (Z.eq_dec (modulus F) 2) as [E|]; [rewrite E in O; discriminate O|lia]).
  rewrite !eqmod_cong, !is_square_mod by assumption.
  destruct (euler_pm (modulus F) x P O D) as [E|E]; [left|right]; split; auto.
  - destruct (three_or_five F HP) as [T|T].
    + eexists. apply root_3_mod_4; [now apply three_mod_4|lia|exact E].
    + destruct (root_5_mod_8 (modulus F) x (sqrt_m1 F) P (five_mod_8 F T) (sqrt_m1_ok F T) E) as [[_ R]|[_ R]]; eexists; exact R.
  - intros S. apply (one_not_minus_one (modulus F) P3). rewrite <- E. symmetry. now apply euler_square.
Qed.
Lemma square_zero_or_one F x : In F pow_fields -> is_square F x -> ~ eqmod F x 0 -> eqmod F (x ^ ((modulus F - 1) / 2)) 1.
Proof. intros H S X. destruct (euler F x H X) as [[_ E]|[N _]]; [exact E|contradiction]. Qed.

(** ** Claims *)
Lemma eqmod_dec F x y : {eqmod F x y} + {~ eqmod F x y}.
Proof. unfold eqmod. apply Z.eq_dec. Qed.
Lemma fresh_produced F o : In F all_fields -> fresh F o -> produced F o.
Proof. intros H R. pose proof (B_pos F H) as BP. unfold B in BP. eapply rep_weaken; [exact R|lia|lia]. Qed.

Lemma invert_claim F a : In F all_fields -> pow_safe F a ->
  exists i, computes_unary F "F::invert" "F::inverted" a i /\ pow_safe F i /\ produced F i /\
    (eqmod F (value F a) 0 -> eqmod F (value F i) 0) /\
    exists o, computes F "mul" i a o /\ produced F o /\ (~ eqmod F (value F a) 0 -> eqmod F (value F o) 1).
Proof.
  intros H S. pose proof (safe_pow F a H S) as HP. pose proof (prime_modulus F H) as P.
  destruct (invert_power F a HP S) as (i & R & Si & Fi & Vi).
  pose proof (inverted_runs F a i HP R) as R'.
  exists i. split; [split; [apply (runsd_runs 3)|apply (runsd_runs 4)]; auto; lia|]. split; [exact Si|]. split; [now apply fresh_produced|]. split.
  - intros E. rewrite eqmod_cong in * by assumption. rewrite Vi. apply zero_pow; auto; [|now apply cong0]. pose proof (odd_modulus F H). pose proof (prime_ge_2 _ P). destruct (Z.eq_dec (modulus F) 2) as [E2|]; [rewrite E2 in *; discriminate|lia].
  - destruct (pow_mul F i a H Si S) as (o & Ro & So & Fo & Vo). exists o.
    split; [apply (computes_intro F 1); [auto|cbn; tauto|lia|exact Ro]|]. split; [now apply fresh_produced|]. intros N.
    rewrite eqmod_cong in * by assumption. rewrite Vo, Vi. apply fermat_inverse; auto. intros D. apply N, div0, D.
Qed.

Lemma div_claim F a b : In F all_fields -> pow_safe F a -> pow_safe F b ->
  exists q, computes F "div" a b q /\ pow_safe F q /\ produced F q /\
    exists o, computes F "mul" q b o /\ produced F o /\ (~ eqmod F (value F b) 0 -> eqmod F (value F o) (value F a)).
Proof.
  intros H Sa Sb. pose proof (safe_pow F a H Sa) as HP. pose proof (prime_modulus F H) as P.
  destruct (div_power F a b HP Sa Sb) as (q & R & Sq & Fq & Vq).
  exists q. split; [apply (computes_intro F 5); [auto|cbn; tauto|lia|exact R]|]. split; [exact Sq|]. split; [now apply fresh_produced|].
  destruct (pow_mul F q b H Sq Sb) as (o & Ro & So & Fo & Vo). exists o.
  split; [apply (computes_intro F 1); [auto|cbn; tauto|lia|exact Ro]|]. split; [now apply fresh_produced|]. intros N.
  rewrite eqmod_cong in * by assumption. rewrite Vo, Vq. rewrite <- Z.mul_assoc, (fermat_inverse _ _ P), Z.mul_1_r; [reflexivity|].
  intros D. apply N, div0, D.
Qed.

Lemma legendre_claim F a : In F all_fields -> pow_safe F a ->
  exists r, runs F "F::legendre" [VArr a] [VArr r] [VArr a] /\ produced F r /\
    (eqmod F (value F r) 1 <-> is_square F (value F a) /\ ~ eqmod F (value F a) 0) /\
    (eqmod F (value F r) (-1) <-> ~ is_square F (value F a)) /\
    (eqmod F (value F r) 0 <-> eqmod F (value F a) 0).
Proof.
  intros H S. pose proof (safe_pow F a H S) as HP. pose proof (prime_modulus F H) as P. pose proof (prime_ge_2 _ P) as P2.
  pose proof (odd_modulus F H) as O.
  assert (P3 : 2 < modulus F) by (destruct (Z.eq_dec (modulus F) 2) as [E|]; [rewrite E in O; discriminate O|lia]).
  destruct (legendre_power F a HP S) as (r & R & Sr & Fr & Vr).
  exists r. split; [apply (runsd_runs 3); auto; lia|]. split; [now apply fresh_produced|].
  assert (D1 : ~ eqmod F 1 (-1)) by (rewrite eqmod_cong by assumption; now apply one_not_minus_one).
  assert (D2 : ~ eqmod F 1 0).
  { rewrite eqmod_cong by assumption. intros D. apply cong0 in D. apply Z.divide_1_r_nonneg in D; lia. }
  assert (D3 : ~ eqmod F (-1) 0).
  { rewrite eqmod_cong by assumption. intros D. apply cong0, Z.divide_opp_r, Z.divide_1_r_nonneg in D; lia. }
  set (x := value F a) in *.
  destruct (eqmod_dec F x 0) as [Z0|NZ].
  - assert (E : eqmod F (value F r) 0).
    { unfold eqmod in *. rewrite Vr. fold (eqmod F (x ^ ((modulus F - 1) / 2)) 0). rewrite eqmod_cong by assumption. apply zero_pow; auto.
      - apply Z.div_str_pos. lia.
      - apply cong0. now apply eqmod_cong. }
    assert (SQ : is_square F x) by (exists 0; unfold eqmod in *; symmetry; exact Z0).
    assert (~ eqmod F (value F r) 1) by (unfold eqmod in *; congruence).
    assert (~ eqmod F (value F r) (-1)) by (unfold eqmod in *; congruence). tauto.
  - destruct (euler F x HP NZ) as [[Q E]|[Q E]].
    + assert (eqmod F (value F r) 1) by (unfold eqmod in *; congruence).
      assert (~ eqmod F (value F r) 0) by (unfold eqmod in *; congruence).
      assert (~ eqmod F (value F r) (-1)) by (unfold eqmod in *; congruence). tauto.
    + assert (eqmod F (value F r) (-1)) by (unfold eqmod in *; congruence).
      assert (~ eqmod F (value F r) 0) by (unfold eqmod in *; congruence).
      assert (~ eqmod F (value F r) 1) by (unfold eqmod in *; congruence). tauto.
Qed.

Lemma sqrt_claim F a : In F all_fields -> pow_safe F a -> is_square F (value F a) ->
  exists r, runs F "F::sqrt" [VArr a] [VArr r] [VArr a] /\ produced F r /\ eqmod F (value F r * value F r) (value F a).
Proof.
  intros H S Q. pose proof (safe_pow F a H S) as HP. pose proof (prime_modulus F H) as P. pose proof (prime_ge_2 _ P) as P2.
  assert (ZC : eqmod F (value F a) 0 -> forall r e k, 0 < e -> cong (modulus F) (value F r) (value F a ^ e * k) -> eqmod F (value F r * value F r) (value F a)).
  { intros Z0 r e k E V. rewrite eqmod_cong in * by assumption. pose proof (zero_pow (modulus F) (value F a) e P E (cong0 _ _ Z0)) as W. rewrite V, W, Z0. reflexivity. }
  assert (E1 : ~ eqmod F (value F a) 0 -> cong (modulus F) (value F a ^ ((modulus F - 1) / 2)) 1).
  { intros N. apply eqmod_cong; auto. now apply square_zero_or_one. }
  destruct (three_or_five F HP) as [T|T].
  - destruct (sqrt3_power F a T S) as (r & R & Sr & Fr & Vr). exists r. split; [apply (runsd_runs 3); auto; lia|]. split; [now apply fresh_produced|].
    destruct (eqmod_dec F (value F a) 0) as [Z0|NZ].
    + apply (ZC Z0 r ((modulus F + 1) / 4) 1); [|rewrite Z.mul_1_r; now apply eqmod_cong].
      pose proof (three_mod_4 F T). apply Z.div_str_pos. split; [lia|]. destruct (Z.eq_dec (modulus F) 2) as [E|]; [rewrite E in *; discriminate|lia].
    + rewrite eqmod_cong in * by assumption. rewrite Vr. apply root_3_mod_4; [now apply three_mod_4| |exact (E1 NZ)].
      pose proof (three_mod_4 F T) as M. destruct (Z.eq_dec (modulus F) 2) as [E|]; [rewrite E in M; discriminate|lia].
  - destruct (sqrt5_power F a T S) as (r & R & Sr & Fr & Vr). exists r. split; [apply (runsd_runs 4); auto; lia|]. split; [now apply fresh_produced|].
    pose proof (five_mod_8 F T) as M. rewrite eqmod_cong in Vr by assumption.
    assert (D : modulus F = 8 * (modulus F / 8) + 5) by (pose proof (Z.div_mod (modulus F) 8); lia).
    destruct (eqmod_dec F (value F a) 0) as [Z0|NZ]; [eapply (ZC Z0 r ((modulus F + 3) / 8)); [apply Z.div_str_pos; lia|exact Vr]|].
    rewrite eqmod_cong by assumption. rewrite Vr.
    assert (HF : cong (modulus F) ((modulus F - (modulus F + 1) / 2) * -2) 1).
    { assert ((modulus F + 1) / 2 = 4 * (modulus F / 8) + 3) as ->.
      { rewrite D at 1. replace (8 * (modulus F / 8) + 5 + 1) with ((4 * (modulus F / 8) + 3) * 2) by ring. apply Z.div_mul. lia. }
      exists (-1). lia. }
    destruct (root_5_mod_8 (modulus F) (value F a) (sqrt_m1 F) P M (sqrt_m1_ok F T) (E1 NZ)) as [[Q1 R1]|[Q1 R1]].
    + etransitivity; [|exact R1]. rewrite Q1. apply cong_eq. ring.
    + etransitivity; [|exact R1]. rewrite Q1.
      replace ((-1 - 1) * (modulus F - (modulus F + 1) / 2) * value F (coeff_lit F) + 1) with
        ((modulus F - (modulus F + 1) / 2) * -2 * value F (coeff_lit F) + 1) by ring.
      rewrite HF. unfold sqrt_m1. apply cong_eq. ring.
Qed.
