(** The words of a representation are determined by its value. *)
From Coq Require Import ZArith List String Lia Bool.
From Verif Require Import Lang Poly Kernel Fields Kfacts Ops.
Import ListNotations.
Local Open Scope string_scope.
Local Open Scope Z_scope.

(** [k] words of [w] bits, then whatever remains *)
Fixpoint split_words (w : Z) (k : nat) (z : Z) : list Z :=
  match k with O => [z] | S k => z mod 2 ^ w :: split_words w k (z / 2 ^ w) end.
Definition to_words (F : fld) (z : Z) : list Z := split_words (fl_w F) (fl_n F - 1) z.

Lemma split_words_value w k z : 0 <= w -> words_value w (split_words w k z) = z.
Proof.
  intros Hw. revert z. induction k as [|k IH]; intros z; cbn [split_words words_value].
  - ring.
  - rewrite IH. pose proof (Z.div_mod z (2 ^ w) ltac:(apply Z.pow_nonzero; lia)). lia.
Qed.
Lemma split_words_len w k z : List.length (split_words w k z) = S k.
Proof. revert z. induction k; intros; simpl; auto. Qed.
Lemma split_words_low w k z i : 0 <= w -> (i < k)%nat -> 0 <= nth i (split_words w k z) 0 < 2 ^ w.
Proof.
  intros Hw. revert z i. induction k as [|k IH]; intros z [|i] L; try lia; cbn [split_words nth].
  - apply Z.mod_pos_bound. apply Z.pow_pos_nonneg; lia.
  - apply IH; lia.
Qed.
Lemma split_words_unique w k l : 0 <= w -> List.length l = S k ->
  (forall i, (i < k)%nat -> 0 <= nth i l 0 < 2 ^ w) -> l = split_words w k (words_value w l).
Proof.
  intros Hw. revert l. induction k as [|k IH]; intros [|x l] L H; try discriminate; simpl in L.
  - destruct l; [|discriminate]. cbn [words_value split_words]. f_equal. ring.
  - assert (P : 0 < 2 ^ w) by (apply Z.pow_pos_nonneg; lia).
    cbn [words_value split_words].
    pose proof (H 0%nat ltac:(lia)) as H0. simpl in H0.
    rewrite (Z.mul_comm (2 ^ w)), Z.mod_add, Z.mod_small, Z.div_add, Z.div_small by lia.
    f_equal. rewrite Z.add_0_l. apply IH; [lia|]. intros i Hi. apply (H (S i)). lia.
Qed.
Lemma rep_unique F lo hi l : In F all_fields -> rep F lo hi l -> l = to_words F (value F l).
Proof.
  intros H (L & A & _). destruct (layout_facts F H) as (Hn & Hw & _).
  apply split_words_unique; auto; lia.
Qed.
Lemma to_words_value F z : In F all_fields -> value F (to_words F z) = z.
Proof. intros H. destruct (layout_facts F H) as (Hn & Hw & _). apply split_words_value. lia. Qed.
Lemma to_words_rep F z lo hi : In F all_fields -> lo <= z / lowmod F <= hi -> rep F lo hi (to_words F z).
Proof.
  intros H T. destruct (layout_facts F H) as (Hn & Hw & _).
  assert (R : rep F (top F (to_words F z)) (top F (to_words F z)) (to_words F z)).
  { split; [|split; [|lia]]. { unfold to_words. rewrite split_words_len. lia. }
    intros i Hi. apply split_words_low; lia. }
  eapply rep_top; [exact R|]. rewrite (value_top F _ _ _ H R), to_words_value; auto.
Qed.
Lemma to_words_tight F z : In F all_fields -> 0 <= z < 2 ^ nbits F -> tight F (to_words F z).
Proof.
  intros H Z. apply to_words_rep; auto. fold (B F). pose proof (lowmod_pos F H).
  rewrite pow_nbits' in Z by auto. split.
  - apply Z.div_pos; lia.
  - assert (z / lowmod F < B F) by (apply Z.div_lt_upper_bound; lia). lia.
Qed.
Lemma to_words_canonical F z : In F all_fields -> 0 <= z < modulus F -> canonical F (to_words F z).
Proof.
  intros H Z. split.
  - apply to_words_tight; auto. unfold modulus in Z. destruct (layout_facts F H) as (_ & _ & _ & C & _). lia.
  - rewrite to_words_value; auto. lia.
Qed.
Lemma rep_eq F lo hi lo' hi' a b : In F all_fields -> rep F lo hi a -> rep F lo' hi' b -> value F a = value F b -> a = b.
Proof. intros H A Bb E. rewrite (rep_unique F lo hi a), (rep_unique F lo' hi' b), E; auto. Qed.
Lemma canonical_value F l : In F all_fields -> canonical F l -> 0 <= value F l < modulus F.
Proof. intros H [T L]. pose proof (tight_value F l H T). lia. Qed.
Lemma canonical_mod F l : In F all_fields -> canonical F l -> value F l mod modulus F = value F l.
Proof. intros H C. apply Z.mod_small, canonical_value; auto. Qed.
Lemma canonical_unique F a b : In F all_fields -> canonical F a -> canonical F b -> eqmod F (value F a) (value F b) -> a = b.
Proof.
  intros H A Bb E. unfold eqmod in E. rewrite !canonical_mod in E by auto.
  destruct A as [A _], Bb as [Bb _]. eapply rep_eq; eauto.
Qed.
