(** In e521_1 small multiplication by a power of two is right: the carries it
    misplaces (C07) are all zero. *)
From Coq Require Import ZArith List String Lia Bool.
From Verif Require Import Lang Poly Kernel Fields Kfacts Ops Normalize Methods Arith Safe Exact Cuts SmallMul.
Import ListNotations.
Local Open Scope string_scope.
Local Open Scope Z_scope.

Lemma column_pow L x H m j : 0 < m -> 0 <= L < m -> 0 <= x < 2 ^ 54 -> 0 <= j <= 27 ->
  2 ^ j * ((L + x * m + m * 2 ^ 54 * H) mod (m * 2 ^ 54)) / (m * 2 ^ 54) = 2 ^ j * (x / 2 ^ 27) / 2 ^ 27.
Proof.
  intros M HL HX J. replace (L + x * m + m * 2 ^ 54 * H) with (L + x * m + H * (m * 2 ^ 54)) by ring. rewrite Z.mod_add by lia.
  rewrite (Z.mod_small (L + x * m)) by nia.
  assert (E1 : 2 ^ 54 = 2 ^ j * 2 ^ (54 - j)) by (rewrite <- Z.pow_add_r by lia; f_equal; lia).
  assert (E2 : 2 ^ 27 = 2 ^ j * 2 ^ (27 - j)) by (rewrite <- Z.pow_add_r by lia; f_equal; lia).
  assert (E3 : 2 ^ (54 - j) = 2 ^ 27 * 2 ^ (27 - j)) by (rewrite <- Z.pow_add_r by lia; f_equal; lia).
  pose proof (Z.pow_pos_nonneg 2 j ltac:(lia) ltac:(lia)) as P1. pose proof (Z.pow_pos_nonneg 2 (54 - j) ltac:(lia) ltac:(lia)) as P2.
  pose proof (Z.pow_pos_nonneg 2 (27 - j) ltac:(lia) ltac:(lia)) as P3. pose proof (Z.pow_pos_nonneg 2 27 ltac:(lia) ltac:(lia)) as P4.
  transitivity (x / 2 ^ (54 - j)).
  - rewrite E1. replace (m * (2 ^ j * 2 ^ (54 - j))) with (2 ^ j * (m * 2 ^ (54 - j))) by ring.
    rewrite Z.div_mul_cancel_l by nia. rewrite <- Z.div_div by lia. f_equal. rewrite Z.add_comm, Z.div_add_l by lia. rewrite (Z.div_small L) by lia. lia.
  - rewrite E3, <- Z.div_div by lia. generalize (x / 2 ^ 27). intros y. rewrite E2. now rewrite Z.div_mul_cancel_l by lia.
Qed.
Lemma words_app w l m : 0 <= w -> words_value w (l ++ m)%list = words_value w l + 2 ^ (w * Z.of_nat (List.length l)) * words_value w m.
Proof.
  intros W. induction l as [|x l IH]; cbn [app words_value List.length].
  - rewrite Z.mul_0_r. cbn [Z.pow]. lia.
  - rewrite IH, Nat2Z.inj_succ. replace (w * Z.succ (Z.of_nat (List.length l))) with (w + w * Z.of_nat (List.length l)) by lia. rewrite Z.pow_add_r by nia. ring.
Qed.
Lemma column_zero a j i : any_rep e521_1 a -> 0 <= j <= 27 -> (i < 9)%nat -> column_carry (2 ^ j) a i = 0.
Proof.
  intros (L & W & _) J I. cbn [fl_n e521_1] in L. unfold column_carry, value. cbn [fl_w e521_1].
  rewrite <- (firstn_skipn i a) at 1. assert (Lf : List.length (firstn i a) = i) by (rewrite firstn_length; lia).
  destruct (skipn i a) as [|x r] eqn:S; [apply (f_equal (@List.length Z)) in S; rewrite skipn_length in S; cbn in S; lia|].
  assert (X : nth i a 0 = x). { rewrite <- (firstn_skipn i a), S, app_nth2 by lia. now rewrite Lf, Nat.sub_diag. }
  rewrite X, words_app, Lf by lia. cbn [words_value]. set (m := 2 ^ (54 * Z.of_nat i)).
  assert (Q : 2 ^ (54 * (Z.of_nat i + 1)) = m * 2 ^ 54) by (unfold m; rewrite <- Z.pow_add_r by lia; f_equal; lia). rewrite Q.
  assert (Lo : 0 <= words_value 54 (firstn i a) < m).
  { pose proof (words_value_bound 54 (firstn i a) ltac:(lia)) as K. rewrite Lf in K. rewrite <- Z.pow_mul_r in K by lia. apply K. intros k Hk.
    rewrite <- (firstn_skipn i a) in W. specialize (W k ltac:(cbn; lia)). rewrite app_nth1 in W by lia. exact W. }
  pose proof (W i ltac:(cbn; lia)) as Wi. rewrite X in Wi. cbn [fl_w e521_1] in Wi.
  replace (words_value 54 (firstn i a) + m * (x + 2 ^ 54 * words_value 54 r)) with (words_value 54 (firstn i a) + x * m + m * 2 ^ 54 * words_value 54 r) by ring.
  rewrite column_pow by (auto; apply Z.pow_pos_nonneg; lia). lia.
Qed.
Lemma power_small_exact F a j : In F all_fields -> tight F a -> 0 <= j <= 27 -> 2 ^ fl_tb F * 2 ^ j <= 2 ^ 63 -> small_exact F a (2 ^ j).
Proof.
  intros HF T J Fit. pose proof (tight_any F a HF T) as A. pose proof (Z.pow_pos_nonneg 2 j ltac:(lia) ltac:(lia)) as PJ.
  split; [now apply tight_carry|]. split.
  - destruct (rep_value F _ _ a HF T) as (E & Bd). fold (lowmod F). pose proof (lowmod_pos F HF) as LM. destruct T as (_ & _ & T). rewrite E. split.
    + transitivity 0; [lia|]. apply Z.div_pos; nia.
    + apply Z.div_lt_upper_bound; [lia|].
      assert (lowpart F a + lowmod F * top F a < lowmod F * 2 ^ fl_tb F) by nia. apply (Z.lt_le_trans _ (lowmod F * 2 ^ fl_tb F * 2 ^ j)); [now apply Z.mul_lt_mono_pos_r|]. nia.
  - intros ->. rewrite !column_zero by (auto; lia). auto.
Qed.
(** doubling, and any multiplication by 2^j that fits *)
Lemma power_multiple F a j : In F all_fields -> tight F a -> 0 <= j <= 27 -> 2 ^ fl_tb F * 2 ^ j <= 2 ^ 63 ->
  exists o, computes_small F "mul" a (2 ^ j) o /\ value F o = value F a * 2 ^ j /\ any_rep F o.
Proof.
  intros HF T J Fit. assert (K : is_i32 (2 ^ j)). { pose proof (Z.pow_le_mono_r 2 j 27 ltac:(lia) ltac:(lia)). pose proof (Z.pow_pos_nonneg 2 j ltac:(lia) ltac:(lia)). unfold is_i32. lia. }
  assert (TP : produced F a).
  { pose proof (B_pos F HF) as BP. destruct (layout_facts F HF) as (_ & _ & _ & Cp & _). unfold B in BP. eapply rep_weaken; [exact T|lia|lia]. }
  destruct (small_mul_exact F a (2 ^ j) HF TP K) as (o & _ & Ro & _ & X). exists o.
  destruct (X (power_small_exact F a j HF T J Fit)) as (C & V). auto.
Qed.
Lemma power_case : tight e521_1 [9; 8; 7; 6; 5; 2 ^ 53; 3; 2 ^ 54 - 1; 1; 2 ^ 34] /\ 2 ^ fl_tb e521_1 * 2 ^ 27 <= 2 ^ 63 /\
  ~ small_exact e521_1 [9; 8; 7; 6; 5; 44739243 * 2 ^ 27 - 1; 3; 2 ^ 54 - 1; 1; 2 ^ 34] 3.
Proof.
  split; [|split; [vm_compute; discriminate|]].
  - split; [reflexivity|]. split; [|vm_compute; split; discriminate]. intros i I. cbn in I.
    do 9 (destruct i as [|i]; [vm_compute; split; [discriminate|reflexivity]|]). lia.
  - intros (_ & _ & E). specialize (E eq_refl). destruct E as (E & _). vm_compute in E. discriminate.
Qed.
