(** What the operations that miss their specification do compute, in every
    field and on every value the library produces. *)
From Coq Require Import ZArith List String Lia Bool.
From Verif Require Import Lang Poly Kernel Fields Kfacts Ops Words Normalize Methods Surface Arith Encoding Refute Exact Safe Roots Chain251 Symbols Signed.
From Verif Require Src_e221_3.
Import ListNotations.
Local Open Scope string_scope.
Local Open Scope Z_scope.

(** ** normalize_bitand with a mask *)
(** the mask of ones does not have the shape of a field value, so that this is an
    evaluation, one per field and mode *)
Lemma normalize_ones F : In F all_fields ->
  runsd 4 F "F::normalize" [VArr (repeat (-1) (fl_n F))] [] [VArr (canon F (repeat (-1) (fl_n F)))].
Proof.
  intros H md [|[|[|[|k]]]] Hf; [lia..|]. clear Hf. revert md k.
  repeat (destruct H as [<-|H]; [intros [|] k; vm_compute; reflexivity|]). destruct H.
Qed.
Lemma ones_value F : In F all_fields -> value F (repeat (-1) (fl_n F)) mod modulus F = modulus F - value F (repeat 1 (fl_n F)).
Proof. intros H. repeat (destruct H as [<-|H]; [vm_compute; reflexivity|]). destruct H. Qed.
Lemma nband_ones F x : In F all_fields -> normal F x ->
  exists o, runsd 6 F "F::normalize_bitand" [VArr x; VArr (repeat (-1) (fl_n F))] [] [VArr o; VArr (canon F (repeat (-1) (fl_n F)))] /\
    tight F o /\ value F o = Z.land (value F x mod modulus F) (modulus F - value F (repeat 1 (fl_n F))).
Proof.
  intros H Nx. destruct (canon_canonical F x H) as [Tx _]. destruct (canon_canonical F (repeat (-1) (fl_n F)) H) as [Tm _].
  destruct (bitand_runs F _ _ H Tx Tm) as (o & R & To & Vo).
  pose proof (nsbitand_step F x _ o H Nx R) as R1. pose proof (normalize_ones F H) as R2.
  exists o. rewrite !canon_value, ones_value in Vo by auto. split; auto.
  apply (call_step _ _ _ _ _ _ _ (same_nbitand F H)). intros md fuel Hf.
  unfold Src_e221_3.f_normalize_bitand. evm. callee R2. callee R1. reflexivity.
Qed.
Lemma zero_words F : In F all_fields -> tight F (repeat 0 (fl_n F)) /\ value F (repeat 0 (fl_n F)) = 0 /\ 0 < modulus F.
Proof.
  intros H. split; [|split].
  - repeat (destruct H as [<-|H]; [show_rep|]). destruct H.
  - repeat (destruct H as [<-|H]; [reflexivity|]). destruct H.
  - repeat (destruct H as [<-|H]; [reflexivity|]). destruct H.
Qed.
Lemma and_le x y : 0 <= x -> 0 <= y -> Z.land x y <= x.
Proof.
  intros H K.
  assert (E : Z.land (Z.ldiff x y) (Z.land x y) = 0).
  { apply Z.bits_inj'. intros n _. rewrite !Z.land_spec, Z.ldiff_spec, Z.bits_0. destruct (Z.testbit x n), (Z.testbit y n); reflexivity. }
  pose proof (Z.add_nocarry_lxor _ _ E) as D. rewrite (Z.lxor_lor _ _ E), Z.lor_ldiff_and in D.
  assert (0 <= Z.ldiff x y) by (apply Z.ldiff_nonneg; auto). lia.
Qed.
Lemma nband_claim F x : In F all_fields -> normal F x ->
  (exists m o m', runs F "F::filled" [VInt 1] [VArr m] [VInt 1] /\
     runs F "F::normalize_bitand" [VArr x; VArr m] [] [VArr o; VArr m'] /\ tight F o /\
     value F o = Z.land (value F x mod modulus F) (modulus F - value F (repeat 1 (fl_n F))) /\
     (eqmod F (value F o) (value F x) <->
      Z.land (value F x mod modulus F) (modulus F - value F (repeat 1 (fl_n F))) = value F x mod modulus F)) /\
  (exists m o m', runs F "F::filled" [VInt 0] [VArr m] [VInt 0] /\
     runs F "F::normalize_bitand" [VArr x; VArr m] [] [VArr o; VArr m'] /\ tight F o /\ value F o = 0).
Proof.
  intros H Nx. destruct (zero_words F H) as (T0 & V0 & Pp). split.
  - destruct (nband_ones F x H Nx) as (o & R & To & Vo).
    exists (repeat (-1) (fl_n F)), o, (canon F (repeat (-1) (fl_n F))).
    split; [eapply runsd_runs; [|exact (filled_runs F "F::filled" true H (or_introl eq_refl))]; lia|].
    split; [eapply runsd_runs; [|exact R]; lia|]. split; [exact To|]. split; [exact Vo|].
    rewrite <- Vo. unfold eqmod.
    assert (0 <= value F o <= value F x mod modulus F) as B.
    { pose proof (Z.mod_pos_bound (value F x) (modulus F) Pp). rewrite Vo.
      assert (0 <= modulus F - value F (repeat 1 (fl_n F))) as Hm
        by (clear - H; repeat (destruct H as [<-|H]; [vm_compute; discriminate|]); destruct H).
      split; [apply Z.land_nonneg; lia|]. apply and_le; lia. }
    pose proof (Z.mod_pos_bound (value F x) (modulus F) Pp). rewrite (Z.mod_small (value F o)) by lia. tauto.
  - destruct (nbitand_runs F x _ H Nx (tight_normal F _ H T0)) as (o & R & To & Vo).
    exists (repeat 0 (fl_n F)), o, (canon F (repeat 0 (fl_n F))).
    split; [eapply runsd_runs; [|exact (filled_runs F "F::filled" false H (or_introl eq_refl))]; lia|].
    split; [eapply runsd_runs; [|exact R]; lia|]. split; [exact To|].
    rewrite Vo, V0, Z.mod_0_l, Z.land_0_r by lia. reflexivity.
Qed.

(** ** which field *)
Lemma which F : In F all_fields -> F = e222_117 \/ F = e251_9 \/ F <> e222_117 /\ F <> e251_9.
Proof.
  intros H. repeat (destruct H as [<-|H]; [first [left; reflexivity|right; left; reflexivity|
    right; right; split; intros E; apply (f_equal fl_C) in E; discriminate E]|]). destruct H.
Qed.
Lemma not_both F : F = e222_117 -> F <> e251_9.
Proof. intros -> E. apply (f_equal fl_C) in E. discriminate E. Qed.

(** ** products *)
Lemma mul_room F a b : In F all_fields -> wide F a -> wide F b ->
  exists o, computes F "mul" a b o /\ produced F o /\
    (eqmod F (value F o) (value F a * value F b) <->
     (F = e222_117 -> 0 <= value F a * value F b < 4588641 * 2 ^ 425) /\
     (F = e251_9 -> 0 <= value F a * value F b < 2 ^ 504)).
Proof.
  intros H Wa Wb. destruct (which F H) as [E|[E|[N N']]].
  - pose proof (not_both F E) as N. subst F. destruct (mul_222_exact a b Wa Wb) as (o & R & S & X).
    exists o. split; [exact R|]. split; [apply fresh_produced'; auto|]. rewrite X. tauto.
  - assert (F <> e222_117) as N by (intros E'; exact (not_both F E' E)). subst F. destruct (mul_251_exact a b Wa Wb) as (o & R & S & X).
    exists o. split; [exact R|]. split; [apply fresh_produced'; auto|]. rewrite X. tauto.
  - destruct (mul_ok F a b H (safe_wide F a b N' N Wa Wb)) as (o & R & Ro & X & _). exists o.
    split; [apply (computes_intro F 1); [exact H|cbn; tauto|lia|exact R]|]. split; [now apply fresh_produced'|]. tauto.
Qed.
Lemma mul_domain F a b : In F all_fields -> produced F a -> produced F b ->
  exists o, computes F "mul" a b o /\ produced F o /\
    (eqmod F (value F o) (value F a * value F b) <->
     (F = e222_117 -> 0 <= value F a * value F b < 4588641 * 2 ^ 425) /\
     (F = e251_9 -> 0 <= value F a * value F b < 2 ^ 504)).
Proof. intros H Pa Pb. apply mul_room; auto using produced_wide. Qed.

(** ** differences *)
Lemma sub_domain F a b : In F all_fields -> any_rep F a -> any_rep F b ->
  exists o, computes F "sub" a b o /\ rep F (- 2 ^ fl_tb F - 1) (2 ^ fl_tb F) o /\
    eqmod F (value F o) (value F a - value F b + 2 * fl_C F * carry F b) /\
    (eqmod F (value F o) (value F a - value F b) <-> carry F b = 0).
Proof.
  intros H A Bb. destruct (sub_sharp F a b H A Bb) as (o & R & X & Ro). exists o. split; [exact R|]. split; [exact Ro|]. split; [|exact X].
  destruct (sub_ok F a b H A Bb) as (o' & R' & _ & V).
  apply (runsd_runs 1) in R'; [|lia].
  assert (o' = o) as ->. { destruct R as [R _]. pose proof (R Debug) as Q. pose proof (R' Debug) as Q'. cbn [append] in Q. congruence. }
  rewrite V. assert (E : eqmod F (folded F a - folded F b) (value F a - value F b)) by (apply eqmod_diff; apply folded_eqmod).
  unfold eqmod in *. rewrite Zplus_mod, E, <- Zplus_mod. reflexivity.
Qed.

(** ** negation *)
Lemma neg_domain F a : In F all_fields -> any_rep F a ->
  exists o, runs F "F::neg" [VArr a] [VArr o] [VArr a] /\ rep F (-1) (2 * 2 ^ fl_tb F) o /\ eqmod F (value F o) (value F a) /\
    (eqmod F (value F o + value F a) 0 <-> eqmod F (value F a) 0).
Proof.
  intros H A. destruct (neg_zero F a H A) as (o & R & S & Z0). exists o. split; [exact R|]. split; [exact S|].
  destruct (Z.eq_dec (value F a mod modulus F) (0 mod modulus F)) as [E|N].
  - specialize (Z0 E). split; [|tauto]. unfold eqmod in *. rewrite E. rewrite <- Z0.
    destruct (zero_words F H) as (_ & _ & Pp). rewrite Z.add_mod, E, Z.mod_0_l, Z.add_0_r, Z.mod_mod by lia. reflexivity.
  - destruct (neg_refuted F a H A N) as (o' & R' & V & X).
    assert (o' = o) as -> by (pose proof (R Debug); pose proof (R' Debug); congruence). split; [exact V|]. unfold eqmod in *. tauto.
Qed.

(** ** powers *)
Lemma invert_domain F a : In F all_fields -> F <> e251_9 -> produced F a -> ~ eqmod F (value F a) 0 ->
  exists i, computes_unary F "F::invert" "F::inverted" a i /\ produced F i /\
    (eqmod F (value F i * value F a) 1 <-> (F = e222_117 -> 0 <= value F a)).
Proof.
  intros H N P Nz. destruct (which F H) as [E|[E|[M _]]]; [|congruence|].
  - destruct (invert_claim_222 F a E P Nz) as (i & R & L & X). exists i. split; [exact R|]. split; [apply loose_produced; auto|]. tauto.
  - pose proof (produced_wide F a H P) as Wa.
    destruct (invert_claim F a H (or_intror (conj M (conj N Wa)))) as (i & R & Pi & P' & _ & o & C & Po & X).
    exists i. split; [exact R|]. split; [exact P'|].
    destruct (mul_produced F i a H M N P' P) as (o' & C' & V & _).
    assert (o' = o) as ->. { destruct C as [C _], C' as [C' _]. pose proof (C Debug). pose proof (C' Debug). congruence. }
    specialize (X Nz). unfold eqmod in *. rewrite <- V. tauto.
Qed.
Lemma legendre_domain F a : In F all_fields -> F <> e251_9 -> produced F a -> ~ eqmod F (value F a) 0 ->
  exists r, runs F "F::legendre" [VArr a] [VArr r] [VArr a] /\ produced F r /\
    (is_square F (value F a) -> (eqmod F (value F r) 1 <-> (F = e222_117 -> 0 <= value F a))) /\
    (~ is_square F (value F a) -> (eqmod F (value F r) (-1) <-> (F = e222_117 -> 0 <= value F a))).
Proof.
  intros H N P Nz. destruct (which F H) as [E|[E|[M _]]]; [|congruence|].
  - destruct (legendre_claim_222 F a E P Nz) as (r & R & L & X & Y). exists r. split; [exact R|]. split; [apply loose_produced; auto|].
    split; intros S; [specialize (X S)|specialize (Y S)]; tauto.
  - pose proof (produced_wide F a H P) as Wa.
    destruct (legendre_claim F a H (or_intror (conj M (conj N Wa)))) as (r & R & Pr & X & Y & _).
    exists r. split; [exact R|]. split; [exact Pr|]. split; intros S; [rewrite X|rewrite Y]; tauto.
Qed.
Lemma sqrt_domain F a : In F all_fields -> F <> e251_9 -> produced F a -> is_square F (value F a) -> ~ eqmod F (value F a) 0 ->
  exists r, runs F "F::sqrt" [VArr a] [VArr r] [VArr a] /\ produced F r /\
    (F <> e222_117 \/ 0 <= value F a -> eqmod F (value F r * value F r) (value F a)) /\
    (F = e222_117 -> (eqmod F (value F r * value F r) (value F a) /\ is_square F (value F r) <-> 0 <= value F a)).
Proof.
  intros H N P S Nz. destruct (which F H) as [E|[E|[M _]]]; [|congruence|].
  - destruct (sqrt_claim_222 F a E P S Nz) as (r & R & L & X). exists r. split; [exact R|]. split; [apply loose_produced; auto|].
    split; [|auto]. intros [?|V]; [tauto|]. tauto.
  - pose proof (produced_wide F a H P) as Wa.
    destruct (sqrt_claim F a H (or_intror (conj M (conj N Wa))) S) as (r & R & Pr & X).
    exists r. split; [exact R|]. split; [exact Pr|]. tauto.
Qed.
