(** What the root functions compute on every argument: the fourth-power symbol
    behind the square roots modulo 5 mod 8, and "roots" of non-squares. *)
From Coq Require Import ZArith Znumtheory List String Lia Bool Setoid.
From Verif Require Import Lang Poly Kernel Fields Kfacts Power Arith NumTheory Primality Primes Roots.
Import ListNotations.
Local Open Scope string_scope.
Local Open Scope Z_scope.

Lemma mod_five F : In F pow_fields -> modulus F mod 8 = 5 -> In F five_fields.
Proof.
  intros H M. destruct (three_or_five F H) as [T|T]; [|exact T]. exfalso. pose proof (three_mod_4 F T) as M4.
  pose proof (Z.div_mod (modulus F) 8). pose proof (Z.div_mod (modulus F) 4). lia.
Qed.
Lemma mod_three F : In F pow_fields -> modulus F mod 4 = 3 -> In F three_fields.
Proof.
  intros H M. destruct (three_or_five F H) as [T|T]; [exact T|]. exfalso. pose proof (five_mod_8 F T) as M4.
  pose proof (Z.div_mod (modulus F) 8). pose proof (Z.div_mod (modulus F) 4). lia.
Qed.

(** ** Number theory *)
Section Five.
  Variables (p x i : Z).
  Hypothesis P : prime p.
  Hypothesis M : p mod 8 = 5.
  Hypothesis I : cong p (i * i) (-1).
  Let k := p / 8.
  Lemma five_k : p = 8 * k + 5 /\ 0 <= k /\ (p - 1) / 2 = 4 * k + 2 /\ (p - 1) / 4 = 2 * k + 1 /\ (p + 3) / 8 = k + 1.
  Proof.
    pose proof (prime_ge_2 p P). unfold k.
    assert (D : p = 8 * (p / 8) + 5) by (pose proof (Z.div_mod p 8); lia).
    split; [exact D|]. split; [apply Z.div_pos; lia|]. split; [|split].
    - rewrite D at 1. replace (8 * (p / 8) + 5 - 1) with ((4 * (p / 8) + 2) * 2) by lia. apply Z.div_mul. lia.
    - rewrite D at 1. replace (8 * (p / 8) + 5 - 1) with ((2 * (p / 8) + 1) * 4) by lia. apply Z.div_mul. lia.
    - rewrite D at 1. replace (8 * (p / 8) + 5 + 3) with ((p / 8 + 1) * 8) by lia. apply Z.div_mul. lia.
  Qed.
  Lemma quartic_square : x ^ ((p - 1) / 4) * x ^ ((p - 1) / 4) = x ^ ((p - 1) / 2).
  Proof.
    destruct five_k as (_ & K & E1 & E2 & _). rewrite E1, E2. rewrite <- pow_double by lia. f_equal. lia.
  Qed.
  Lemma eighth_square : x ^ ((p + 3) / 8) * x ^ ((p + 3) / 8) = x * x ^ ((p - 1) / 4).
  Proof.
    destruct five_k as (_ & K & _ & E2 & E3). rewrite E2, E3. rewrite <- pow_double by lia.
    replace (2 * (k + 1)) with (Z.succ (2 * k + 1)) by lia. now rewrite Z.pow_succ_r by lia.
  Qed.
  Lemma minus_one_roots q : cong p (q * q) (-1) -> cong p q i \/ cong p q (- i).
  Proof.
    intros H. assert (D : cong p ((q - i) * (q - - i)) 0).
    { replace ((q - i) * (q - - i)) with (q * q - i * i) by ring. rewrite H, I. reflexivity. }
    apply cong0, prime_mult in D; auto.
  Qed.
  Lemma fourth_pow z : ~ (p | z) -> cong p ((z * z * (z * z)) ^ ((p - 1) / 4)) 1.
  Proof.
    intros Z. destruct five_k as (D & K & _ & E2 & _). rewrite E2.
    etransitivity; [|exact (fermat p z P Z)]. rewrite !Z.pow_mul_l. rewrite <- !Z.pow_add_r by lia. apply cong_eq. f_equal. lia.
  Qed.
  Lemma square_pow y : (y * y) ^ ((p - 1) / 4) = y ^ ((p - 1) / 2).
  Proof. destruct five_k as (D & K & E1 & E2 & _). rewrite E1, E2. rewrite Z.pow_mul_l, <- Z.pow_add_r by lia. f_equal. lia. Qed.
End Five.

Lemma quartic_claim F a : In F all_fields -> modulus F mod 8 = 5 -> pow_safe F a ->
  exists r, runs F "F::quartic_legendre" [VArr a] [VArr r] [VArr a] /\ produced F r /\
    (eqmod F (value F r) 0 <-> eqmod F (value F a) 0) /\
    (eqmod F (value F r) 1 <-> ~ eqmod F (value F a) 0 /\ exists z, eqmod F (z * z * (z * z)) (value F a)) /\
    (eqmod F (value F r) (-1) <-> is_square F (value F a) /\ ~ exists z, eqmod F (z * z * (z * z)) (value F a)) /\
    (eqmod F (value F r * value F r) (-1) <-> ~ is_square F (value F a)).
Proof.
  intros H M S. pose proof (safe_pow F a H S) as HP. pose proof (mod_five F HP M) as T.
  pose proof (prime_modulus F H) as P. pose proof (prime_ge_2 _ P) as P2. pose proof (odd_modulus F H) as O.
  assert (P3 : 2 < modulus F) by (destruct (Z.eq_dec (modulus F) 2) as [E|]; [rewrite E in O; discriminate O|lia]).
  destruct (quartic_power F a T S) as (r & R & Sr & Fr & Vr).
  exists r. split; [apply (runsd_runs 3); auto; lia|]. split; [now apply fresh_produced|].
  destruct (five_k (modulus F) P M) as (D & K & E1 & E2 & _).
  assert (D1 : ~ eqmod F 1 (-1)) by (rewrite eqmod_cong by assumption; now apply one_not_minus_one).
  assert (D2 : ~ eqmod F 1 0).
  { rewrite eqmod_cong by assumption. intros X. apply cong0 in X. apply Z.divide_1_r_nonneg in X; lia. }
  assert (D3 : ~ eqmod F (-1) 0).
  { rewrite eqmod_cong by assumption. intros X. apply cong0, Z.divide_opp_r, Z.divide_1_r_nonneg in X; lia. }
  set (x := value F a) in *. set (q := value F r) in *.
  assert (QQ : eqmod F (q * q) (x ^ ((modulus F - 1) / 2))).
  { rewrite eqmod_cong in * by assumption. rewrite Vr. apply cong_eq. now apply quartic_square. }
  destruct (eqmod_dec F x 0) as [Z0|NZ].
  - assert (E : eqmod F q 0).
    { unfold eqmod in *. rewrite Vr. fold (eqmod F (x ^ ((modulus F - 1) / 4)) 0). rewrite eqmod_cong by assumption. apply zero_pow; auto.
      - lia.
      - apply cong0. now apply eqmod_cong. }
    assert (E' : eqmod F (q * q) 0) by (rewrite eqmod_cong in * by assumption; rewrite E; reflexivity).
    assert (SQ : is_square F x) by (exists 0; unfold eqmod in *; symmetry; exact Z0).
    assert (FT : exists z, eqmod F (z * z * (z * z)) x) by (exists 0; unfold eqmod in *; symmetry; exact Z0).
    assert (~ eqmod F q 1) by (unfold eqmod in *; congruence).
    assert (~ eqmod F q (-1)) by (unfold eqmod in *; congruence).
    assert (~ eqmod F (q * q) (-1)) by (unfold eqmod in *; congruence). tauto.
  - assert (FT : (exists z, eqmod F (z * z * (z * z)) x) -> eqmod F q 1).
    { intros [z Z]. rewrite eqmod_cong in * by assumption. rewrite Vr. transitivity ((z * z * (z * z)) ^ ((modulus F - 1) / 4)).
      - apply cong_pow. symmetry. exact Z.
      - apply fourth_pow; auto. intros Y. apply NZ. rewrite <- Z. apply div0 in Y. rewrite Y. reflexivity. }
    destruct (euler F x HP NZ) as [[Q E]|[Q E]].
    + destruct Q as [y Y]. assert (SQ : is_square F x) by (exists y; exact Y).
      assert (NY : ~ eqmod F y 0).
      { intros Y0. apply NZ. rewrite eqmod_cong in * by assumption. rewrite <- Y, Y0. reflexivity. }
      assert (V : eqmod F q (y ^ ((modulus F - 1) / 2))).
      { rewrite eqmod_cong in * by assumption. rewrite Vr, <- (square_pow (modulus F) P M y). apply cong_pow. symmetry. exact Y. }
      assert (E' : eqmod F (q * q) 1) by (unfold eqmod in *; congruence).
      assert (~ eqmod F (q * q) (-1)) by (unfold eqmod in *; congruence).
      destruct (euler F y HP NY) as [[[z Z] Ey]|[_ Ey]].
      * assert (EX : exists z, eqmod F (z * z * (z * z)) x).
        { exists z. rewrite eqmod_cong in * by assumption. rewrite Z. exact Y. }
        specialize (FT EX).
        assert (~ eqmod F q 0) by (unfold eqmod in *; congruence).
        assert (~ eqmod F q (-1)) by (unfold eqmod in *; congruence). tauto.
      * assert (eqmod F q (-1)) by (unfold eqmod in *; congruence).
        assert (~ eqmod F q 0) by (unfold eqmod in *; congruence).
        assert (~ eqmod F q 1) by (unfold eqmod in *; congruence). tauto.
    + assert (E' : eqmod F (q * q) (-1)) by (unfold eqmod in *; congruence).
      assert (N1 : ~ eqmod F q 1).
      { intros X. apply D1. rewrite eqmod_cong in * by assumption. rewrite <- E', X. reflexivity. }
      assert (N2 : ~ eqmod F q (-1)).
      { intros X. apply D1. rewrite eqmod_cong in * by assumption. rewrite <- E', X. reflexivity. }
      assert (N3 : ~ eqmod F q 0).
      { intros X. apply D3. rewrite eqmod_cong in * by assumption. rewrite <- E', X. reflexivity. }
      tauto.
Qed.

Lemma sqrt_any F a : In F all_fields -> pow_safe F a ->
  exists r, runs F "F::sqrt" [VArr a] [VArr r] [VArr a] /\ produced F r /\
    (eqmod F (value F r * value F r) (value F a) <-> is_square F (value F a)) /\
    (~ is_square F (value F a) -> modulus F mod 4 = 3 -> eqmod F (value F r * value F r) (- value F a)) /\
    (~ is_square F (value F a) -> modulus F mod 8 = 5 -> eqmod F (value F r) 0 \/ eqmod F (value F r * value F r) (-2 * value F a)).
Proof.
  intros H S. pose proof (safe_pow F a H S) as HP. pose proof (prime_modulus F H) as P. pose proof (prime_ge_2 _ P) as P2.
  assert (G : forall r, runs F "F::sqrt" [VArr a] [VArr r] [VArr a] ->
    (eqmod F (value F r * value F r) (value F a) <-> is_square F (value F a))).
  { intros r R. split; [intros E; now exists (value F r)|]. intros Q. destruct (sqrt_claim F a H S Q) as (r' & R' & _ & E).
    specialize (R Release). specialize (R' Release). rewrite R in R'. injection R' as R'. now rewrite R'. }
  assert (E1 : ~ is_square F (value F a) -> cong (modulus F) (value F a ^ ((modulus F - 1) / 2)) (-1)).
  { intros N. apply eqmod_cong; auto. destruct (eqmod_dec F (value F a) 0) as [Z0|NZ].
    - exfalso. apply N. exists 0. unfold eqmod in *. symmetry. exact Z0.
    - destruct (euler F (value F a) HP NZ) as [[Q _]|[_ E]]; [contradiction|exact E]. }
  destruct (three_or_five F HP) as [T|T].
  - destruct (sqrt3_power F a T S) as (r & R & Sr & Fr & Vr). apply (runsd_runs 3) in R; [|lia]. exists r. split; [exact R|]. split; [now apply fresh_produced|].
    split; [exact (G r R)|]. pose proof (three_mod_4 F T) as M4.
    split; [|intros _ M; pose proof (Z.div_mod (modulus F) 8); pose proof (Z.div_mod (modulus F) 4); lia].
    intros N _. specialize (E1 N). rewrite eqmod_cong in * by assumption. rewrite Vr.
    assert (K : 0 <= (modulus F + 1) / 4) by (apply Z.div_pos; lia).
    rewrite <- pow_double by exact K.
    replace (2 * ((modulus F + 1) / 4)) with (Z.succ ((modulus F - 1) / 2)).
    + rewrite Z.pow_succ_r by (apply Z.div_pos; lia). rewrite E1. apply cong_eq. ring.
    + assert (D : modulus F = 4 * (modulus F / 4) + 3) by (pose proof (Z.div_mod (modulus F) 4); lia).
      rewrite D at 1 2. replace (4 * (modulus F / 4) + 3 - 1) with ((2 * (modulus F / 4) + 1) * 2) by ring.
      replace (4 * (modulus F / 4) + 3 + 1) with ((modulus F / 4 + 1) * 4) by ring. rewrite !Z.div_mul by lia. lia.
  - destruct (sqrt5_power F a T S) as (r & R & Sr & Fr & Vr). apply (runsd_runs 4) in R; [|lia]. exists r. split; [exact R|]. split; [now apply fresh_produced|].
    split; [exact (G r R)|]. pose proof (five_mod_8 F T) as M.
    split; [intros _ M'; pose proof (Z.div_mod (modulus F) 8); pose proof (Z.div_mod (modulus F) 4); lia|].
    intros N _. specialize (E1 N). rewrite !eqmod_cong in * by assumption.
    assert (D : modulus F = 8 * (modulus F / 8) + 5) by (pose proof (Z.div_mod (modulus F) 8); lia).
    assert (HF : cong (modulus F) ((modulus F - (modulus F + 1) / 2) * -2) 1).
    { assert ((modulus F + 1) / 2 = 4 * (modulus F / 8) + 3) as ->.
      { rewrite D at 1. replace (8 * (modulus F / 8) + 5 + 1) with ((4 * (modulus F / 8) + 3) * 2) by ring. apply Z.div_mul. lia. }
      exists (-1). lia. }
    pose proof (sqrt_m1_ok F T) as I. rewrite <- (quartic_square (modulus F) (value F a) P M) in E1.
    set (h := modulus F - (modulus F + 1) / 2) in *. set (c := value F (coeff_lit F)) in *.
    pose proof (eighth_square (modulus F) (value F a) P M) as E8.
    set (q := value F a ^ ((modulus F - 1) / 4)) in *. set (s := value F a ^ ((modulus F + 3) / 8)) in *.
    assert (IC : c = sqrt_m1 F - 1) by (unfold c, sqrt_m1; ring). set (i := sqrt_m1 F) in *.
    destruct (minus_one_roots (modulus F) i P I q E1) as [Q|Q].
    + right. rewrite Vr.
      assert (W : cong (modulus F) ((q - 1) * h * c + 1) (i + 1)).
      { rewrite IC, Q. replace ((i - 1) * h * (i - 1) + 1) with (h * (i * i - 2 * i + 1) + 1) by ring. rewrite I.
        replace (h * (-1 - 2 * i + 1) + 1) with (h * -2 * i + 1) by ring. rewrite HF. apply cong_eq. ring. }
      rewrite W. replace (s * (i + 1) * (s * (i + 1))) with (s * s * (i * i + 2 * i + 1)) by ring. rewrite E8, I, Q.
      replace (value F a * i * (-1 + 2 * i + 1)) with (2 * value F a * (i * i)) by ring. rewrite I. apply cong_eq. ring.
    + left. rewrite Vr.
      assert (W : cong (modulus F) ((q - 1) * h * c + 1) 0).
      { rewrite IC, Q. replace ((- i - 1) * h * (i - 1) + 1) with (- (h * (i * i - 1)) + 1) by ring. rewrite I.
        replace (- (h * (-1 - 1)) + 1) with (- (h * -2) + 1) by ring. rewrite HF. reflexivity. }
      rewrite W. apply cong_eq. ring.
Qed.

(** ** Non-squares, by Euler's criterion *)
(* -1 has no root when p = 3 mod 4; when p = 5 mod 8 neither has 2, since 2 i = (1 + i)^2 where i^2 = -1 *)
Lemma odd_power h : 0 <= h -> Z.odd h = true -> (-1) ^ h = -1.
Proof. intros P O. rewrite Z.odd_spec in O. destruct O as (k & ->). rewrite Z.pow_add_r, Z.pow_mul_r by lia. change ((-1) ^ 2) with 1. rewrite Z.pow_1_l by lia. reflexivity. Qed.
Lemma minus_one_nonsquare F x : In F pow_fields -> cong (modulus F) x (-1) -> modulus F mod 4 = 3 -> ~ is_square F x.
Proof.
  intros HP X M Q. pose proof (pow_all F HP) as H. pose proof (prime_modulus F H) as P. pose proof (prime_ge_2 _ P).
  assert (P3 : 2 < modulus F) by (destruct (Z.eq_dec (modulus F) 2) as [Y|]; [rewrite Y in M; discriminate M|lia]).
  pose proof (Z.div_mod (modulus F) 4 ltac:(lia)) as D. rewrite M in D. set (k := modulus F / 4) in *.
  assert (E : (modulus F - 1) / 2 = 2 * k + 1) by (rewrite D; symmetry; apply (Z.div_unique _ _ _ 0); lia).
  assert (NZ : ~ eqmod F x 0). { rewrite eqmod_cong by assumption. rewrite X. intros Y. apply cong0 in Y. apply Z.divide_opp_r in Y. apply Z.divide_pos_le in Y; lia. }
  pose proof (square_zero_or_one F x HP Q NZ) as V. rewrite eqmod_cong in V by assumption.
  rewrite (cong_pow _ _ _ _ X), E, odd_power in V; [|lia|rewrite Z.add_comm, Z.odd_add_mul_2; reflexivity]. apply (one_not_minus_one (modulus F) P3). symmetry. exact V.
Qed.
Lemma two_nonsquare F i : In F pow_fields -> modulus F mod 8 = 5 -> cong (modulus F) (i * i) (-1) -> ~ is_square F 2.
Proof.
  intros HP M I Q. pose proof (pow_all F HP) as H. pose proof (prime_modulus F H) as P. pose proof (prime_ge_2 _ P).
  assert (P3 : 2 < modulus F) by (destruct (Z.eq_dec (modulus F) 2) as [Y|]; [rewrite Y in M; discriminate M|lia]).
  pose proof (Z.div_mod (modulus F) 8 ltac:(lia)) as D. rewrite M in D. set (k := modulus F / 8) in *.
  assert (E : (modulus F - 1) / 2 = 2 * (2 * k + 1)) by (rewrite D; symmetry; apply (Z.div_unique _ _ _ 0); lia).
  assert (N2 : ~ eqmod F 2 0). { rewrite eqmod_cong by assumption. intros Y. apply cong0 in Y. apply Z.divide_pos_le in Y; lia. }
  assert (NI : ~ eqmod F (2 * i) 0).
  { rewrite eqmod_cong by assumption. intros Y. apply cong0 in Y. apply prime_mult in Y; [|exact P]. destruct Y as [Y|Y]; [apply Z.divide_pos_le in Y; lia|].
    destruct I as (u & U), Y as (w & W). assert (Y1 : (modulus F | 1)) by (exists (u - w * i); rewrite Z.mul_sub_distr_r, <- U; nia). apply Z.divide_pos_le in Y1; lia. }
  assert (S : is_square F (2 * i)).
  { exists (1 + i). apply eqmod_cong; [exact H|]. replace ((1 + i) * (1 + i)) with (1 + i * i + 2 * i) by ring. rewrite I. apply cong_eq. ring. }
  pose proof (square_zero_or_one F 2 HP Q N2) as V. pose proof (square_zero_or_one F (2 * i) HP S NI) as W. rewrite eqmod_cong in V, W by assumption.
  rewrite Z.pow_mul_l, V in W. rewrite E, Z.pow_mul_r, Z.mul_1_l in W by lia. rewrite Z.pow_2_r in W.
  rewrite (cong_pow _ _ _ _ I), odd_power in W; [|lia|rewrite Z.add_comm, Z.odd_add_mul_2; reflexivity]. apply (one_not_minus_one (modulus F) P3). symmetry. exact W.
Qed.
Lemma nonsquares : pow_safe e383_187 [2; 0; 0; 0; 0; 0; 0] /\ modulus e383_187 mod 8 = 5 /\ ~ is_square e383_187 (value e383_187 [2; 0; 0; 0; 0; 0; 0]) /\
  pow_safe e382_105 [2 ^ 56 - 106; 2 ^ 56 - 1; 2 ^ 56 - 1; 2 ^ 56 - 1; 2 ^ 56 - 1; 2 ^ 56 - 1; 2 ^ 46 - 1] /\ modulus e382_105 mod 4 = 3 /\ ~ is_square e382_105 (value e382_105 [2 ^ 56 - 106; 2 ^ 56 - 1; 2 ^ 56 - 1; 2 ^ 56 - 1; 2 ^ 56 - 1; 2 ^ 56 - 1; 2 ^ 46 - 1]).
Proof.
  split; [right; split; [|split]; [intros E; apply (f_equal fl_C) in E; discriminate E..|show_rep]|]. split; [reflexivity|].
  split; [apply (two_nonsquare _ 5599521986369512752734075910606187695422861476635712368905198393239087679531919579128923981914579090392545610290906); [cbn; tauto|reflexivity|apply eqmod_cong; [cbn; tauto|vm_compute; reflexivity]]|].
  split; [right; split; [|split]; [intros E; apply (f_equal fl_C) in E; discriminate E..|show_rep]|]. split; [reflexivity|].
  apply minus_one_nonsquare; [cbn; tauto|apply eqmod_cong; [cbn; tauto|vm_compute; reflexivity]|reflexivity].
Qed.
