(** Powers of negative values in mod_e222_117 and mod_e251_9, whose products are
    wrong when negative. *)
From Coq Require Import ZArith List String Lia Bool Znumtheory Setoid.
From Verif Require Import Lang Poly Kernel Fields Kfacts Ops Words Codec Normalize Methods Surface Forms Power NumTheory Arith Roots Refute Safe Exact Chain251 Symbols.
From Verif Require Src_e221_3 Src_e222_117 Src_e251_9.
Import ListNotations.
Local Open Scope string_scope.
Local Open Scope Z_scope.

Lemma in_222 F : F = e222_117 -> In F all_fields.
Proof. intros ->. cbn. tauto. Qed.
Lemma two_in F : F = e222_117 \/ F = e251_9 -> In F all_fields.
Proof. intros [->| ->]; cbn; tauto. Qed.

(** ** One product: never negative, whatever the signs *)
Definition wide_range (F : fld) := [(- W F, W F, - W F, W F, 0, mx F)].
Lemma wide_checked : forallb (c2 "F::mul_assign(&F)" wide_range (fun _ => 1) (fun _ => XC 0) (fun _ => [])) [e222_117; e251_9] = true.
Proof. vm_cast_no_check (eq_refl true). Qed.
Lemma wide_runs F a b : F = e222_117 \/ F = e251_9 -> wide F a -> wide F b ->
  exists o, runsd 1 F "F::mul_assign(&F)" [VArr a; VArr b] [] [VArr o; VArr b] /\ loose F o.
Proof.
  intros E A Bb. pose proof (two_in F E) as H.
  assert (K : c2 "F::mul_assign(&F)" wide_range (fun _ => 1) (fun _ => XC 0) (fun _ => []) F = true).
  { pose proof wide_checked as K. rewrite forallb_forall in K. apply K. destruct E as [-> | ->]; cbn; tauto. }
  unfold c2 in K. apply andb_true_iff in K as [Hh K]. unfold wide_range in K. cbn [forallb] in K. rewrite andb_true_r in K.
  destruct (op2 F _ H Hh _ _ _ _ _ _ _ _ _ a b K A Bb) as (o & R & Ro & _). eauto.
Qed.
(** ** Squares of everything produced *)
Definition sq_ranges (F : fld) := [(- B F - 1, -1, 0, mx F); (0, mx F, 0, mx F)].
Definition sq_hints2 (F : fld) : hints := if is_251 F then [("d8", (["d0"; "d1"; "d2"; "d3"; "d4"; "d5"; "d6"; "d7"], sqx F))] else [].
Lemma sq_checked : forallb (c1 "F::square" sq_ranges (fun _ => 1) (fun _ => XC 0) sq_hints2) [e222_117; e251_9] = true.
Proof. vm_cast_no_check (eq_refl true). Qed.
Lemma square_two F a : F = e222_117 \/ F = e251_9 -> produced F a ->
  exists o, runsd 1 F "F::square" [VArr a] [] [VArr o] /\ loose F o /\ eqmod F (value F o) (value F a * value F a).
Proof.
  intros E A. pose proof (two_in F E) as H. pose proof (B_pos F H) as BP. unfold B in BP.
  assert (K : c1 "F::square" sq_ranges (fun _ => 1) (fun _ => XC 0) sq_hints2 F = true).
  { pose proof sq_checked as K. rewrite forallb_forall in K. apply K. destruct E as [-> | ->]; cbn; tauto. }
  unfold c1 in K. apply andb_true_iff in K as [Hh K]. unfold sq_ranges in K. cbn [forallb] in K. apply andb_true_iff in K as [K1 K2]. apply andb_true_iff in K2 as [K2 _].
  destruct (square_produced F a H A) as (o & (R & _) & V & _).
  destruct A as (L & W & T).
  assert (X : exists o, runsd 1 F "F::square" [VArr a] [] [VArr o] /\ loose F o).
  { destruct (Z_le_gt_dec 0 (top F a)).
    - destruct (Kfacts.op1 F _ H Hh _ _ _ _ _ _ _ a K2) as (o' & R' & Ro & _); [split; [exact L|split; [exact W|unfold mx, B; lia]]|]. exists o'. split; [exact R'|exact Ro].
    - destruct (Kfacts.op1 F _ H Hh _ _ _ _ _ _ _ a K1) as (o' & R' & Ro & _); [split; [exact L|split; [exact W|unfold B; lia]]|]. exists o'. split; [exact R'|exact Ro]. }
  destruct X as (o' & R' & Lo). destruct (runs_det F 1 _ _ _ _ _ _ R' R ltac:(lia)) as (_ & D). injection D as ->. exists o. auto.
Qed.

(** ** The loop: square, multiply; here nothing is excluded in mod_e222_117 *)
Lemma mul_222 F a b : F = e222_117 -> loose F a -> loose F b ->
  exists o, runsd 1 F "F::mul_assign(&F)" [VArr a; VArr b] [] [VArr o; VArr b] /\ loose F o /\ eqmod F (value F o) (value F a * value F b).
Proof.
  intros E A Bb. assert (N : F <> e251_9) by (rewrite E; intros X; apply (f_equal fl_C) in X; discriminate X).
  destruct (mul_ok F a b (in_222 F E) (safe_loose F a b N A Bb)) as (o & R & _ & V & L). exists o. auto.
Qed.
Lemma square_222 F a : F = e222_117 -> loose F a ->
  exists o, runsd 1 F "F::square" [VArr a] [] [VArr o] /\ loose F o /\ eqmod F (value F o) (value F a * value F a).
Proof. intros E A. apply square_two; [auto|]. apply loose_produced; [now apply in_222|exact A]. Qed.
Lemma loop_222 F u : F = e222_117 -> String.eqb u "sqval" = false -> String.eqb u "_" = false ->
  forall n i en a s A S, lookup u en = Some (VArr a) -> lookup "sqval" en = Some (VArr s) -> loose F a -> loose F s ->
  eqmod F (value F a) A -> eqmod F (value F s) S ->
  exists en' o, (forall md fuel, (1 <= fuel)%nat -> loop_from md (call md no_base (fl_tbl F) fuel) "_" (chain_body u) n i en = Ok en') /\
    lookup u en' = Some (VArr o) /\ loose F o /\ eqmod F (value F o) (chain n A S).
Proof.
  intros E N1 N2. pose proof (in_222 F E) as H. induction n as [|n IH]; intros i en a s A S La Ls Pa Ps Ea Es; cbn [chain loop_from] in *.
  - exists en, a. split; [intros; reflexivity|]. auto.
  - destruct (square_222 F s E Ps) as (s' & Rs & Ps' & Vs).
    assert (Es' : eqmod F (value F s') (S * S)) by (refine (eq_trans Vs _); now apply eqmod_mul).
    destruct (mul_222 F a s' E Pa Ps') as (a' & Ra & Pa' & Va).
    assert (Ea' : eqmod F (value F a') (A * (S * S))) by (refine (eq_trans Va _); now apply eqmod_mul).
    set (en1 := upd u (VArr a') (upd "sqval" (VArr s') (upd "_" (VInt i) en))).
    destruct (IH (i + 1) en1 a' s' (A * (S * S)) (S * S)) as (en' & o & X & Lo & Po & Vo); auto.
    { unfold en1. apply lookup_upd_eq. }
    { unfold en1. rewrite lookup_upd_ne by (rewrite String.eqb_sym; exact N1). apply lookup_upd_eq. }
    exists en', o. split; [|auto]. intros md fuel Hf.
    assert (Y : exec_list md (call md no_base (fl_tbl F) fuel) (chain_body u) (upd "_" (VInt i) en) = Ok en1).
    { unfold chain_body. rewrite exec_cons. cbn [exec eval_args eval]. unfold get.
      rewrite (lookup_upd_ne "sqval" "_") by reflexivity. rewrite Ls. cbn [bind]. rewrite Rs by exact Hf. cbn [bind write_back bind_rets fst snd].
      rewrite exec_cons. cbn [exec eval_args eval]. unfold get.
      rewrite (lookup_upd_ne u "sqval") by exact N1. rewrite (lookup_upd_ne u "_") by exact N2. rewrite La, lookup_upd_eq. cbn [bind].
      rewrite Ra by exact Hf. reflexivity. }
    rewrite Y. cbn [bind]. apply X. exact Hf.
Qed.

Lemma prime_pow_divides p x k : prime p -> 0 <= k -> (p | x ^ k) -> (p | x).
Proof.
  intros P K. pattern k. apply natlike_ind; auto.
  - intros D. rewrite Z.pow_0_r in D. apply Z.divide_1_r_nonneg in D; [|pose proof (prime_ge_2 p P); lia]. pose proof (prime_ge_2 p P). lia.
  - intros y Y IH D. rewrite Z.pow_succ_r in D by exact Y. apply prime_mult in D; auto. destruct D; auto.
Qed.
(** s is a loose form of the k-th power of x *)
Definition pw (F : fld) (x k : Z) (s : list Z) : Prop := loose F s /\ eqmod F (value F s) (x ^ k).
Lemma pw_square F x k s : F = e222_117 -> pw F x k s -> 0 <= k -> exists r, runsd 1 F "F::square" [VArr s] [] [VArr r] /\ pw F x (2 * k) r.
Proof.
  intros E (L & V) K. destruct (square_222 F s E L) as (r & R & Lr & Vr). exists r. split; [exact R|]. split; [exact Lr|].
  refine (eq_trans Vr _). replace (2 * k) with (k + k) by lia. rewrite Z.pow_add_r by exact K. apply eqmod_mul; auto. now apply in_222.
Qed.
Lemma pw_square1 F a : F = e222_117 -> produced F a -> exists r, runsd 1 F "F::square" [VArr a] [] [VArr r] /\ pw F (value F a) 2 r.
Proof.
  intros E P. destruct (square_two F a (or_introl E) P) as (r & R & Lr & Vr). exists r. split; [exact R|]. split; [exact Lr|]. refine (eq_trans Vr _). f_equal. ring.
Qed.
Lemma loose_value F s : In F all_fields -> loose F s -> 0 <= value F s.
Proof.
  intros H L. destruct (rep_value F _ _ s H L) as [V B]. destruct L as (_ & _ & T). rewrite V. pose proof (lowmod_pos F H). nia.
Qed.
Lemma top_222 a : produced e222_117 a -> value e222_117 a < 257 * 2 ^ 215 /\ (loose e222_117 a -> 0 <= value e222_117 a).
Proof.
  intros P. split; [|intros L; apply loose_value; [cbn; tauto|exact L]]. destruct (rep_value e222_117 _ _ a Exact.in_222 P) as [V B]. destruct P as (_ & _ & T).
  revert T V B. generalize (top e222_117 a) as t. intros t. change (lowmod e222_117) with (2 ^ 174). change (fl_tb e222_117) with 48. change (fl_C e222_117) with 117. change (2 ^ 48) with 281474976710656.
  generalize (value e222_117 a) as v. intros v T V B.
  change (2 ^ 174) with 23945242826029513411849172299223580994042798784118784 in *. change (2 ^ 215) with 52656145834278593348959013841835216159447547700274555627155488768. lia.
Qed.
(** a product with a non-negative value that is not 0 is right exactly if the other is not negative *)
Lemma mul_222_sign F a s : F = e222_117 -> produced F a -> loose F s -> ~ eqmod F (value F s) 0 ->
  exists w, runsd 1 F "F::mul_assign(&F)" [VArr a; VArr s] [] [VArr w; VArr s] /\ loose F w /\
    (eqmod F (value F w) (value F a * value F s) <-> 0 <= value F a).
Proof.
  intros E A L NZ. pose proof (in_222 F E) as H. assert (WA := produced_wide F a H A). assert (WS := loose_wide F s H L).
  destruct (wide_runs F a s (or_introl E) WA WS) as (w & R & Lw). exists w. split; [exact R|]. split; [exact Lw|].
  assert (S0 : 0 <= value F s) by now apply loose_value.
  assert (SN : value F s <> 0) by (intros Z0; apply NZ; rewrite Z0; reflexivity).
  assert (X : exists o, runs F "F::mul_assign(&F)" [VArr a; VArr s] [] [VArr o; VArr s] /\
    (eqmod F (value F o) (value F a * value F s) <-> 0 <= value F a * value F s < 4588641 * 2 ^ 425)).
  { revert WA WS. rewrite E. intros WA WS. destruct (mul_222_exact a s WA WS) as (o & (Ro & _) & _ & I). exists o. auto. }
  destruct X as (o & Ro & I). destruct (runs_det F 1 _ _ _ _ _ _ R Ro ltac:(lia)) as (_ & D). injection D as ->.
  rewrite I.
  assert (U : value F a < 257 * 2 ^ 215 /\ value F s < 257 * 2 ^ 215).
  { assert (PS := loose_produced F s H L). revert A PS. rewrite E. intros A PS. split; [now apply (top_222 a)|now apply (top_222 s)]. }
  revert S0 SN U. generalize (value F a) as x, (value F s) as y. clear. intros x y S0 SN (U1 & U2). split.
  - intros (P & _). nia.
  - intros P. split; [apply Z.mul_nonneg_nonneg; lia|]. apply Z.le_lt_trans with ((257 * 2 ^ 215) * (257 * 2 ^ 215)); [apply Z.mul_le_mono_nonneg; lia|vm_compute; reflexivity].
Qed.
Lemma first_222 F a k s : F = e222_117 -> produced F a -> pw F (value F a) k s -> ~ eqmod F (value F a) 0 -> 0 <= k ->
  exists w, runsd 1 F "F::mul_assign(&F)" [VArr a; VArr s] [] [VArr w; VArr s] /\ loose F w /\
    (eqmod F (value F w) (value F a ^ (k + 1)) <-> 0 <= value F a).
Proof.
  intros E A (L & V) NZ Hk. pose proof (in_222 F E) as H.
  assert (NS : ~ eqmod F (value F s) 0).
  { intros Z0. apply NZ. rewrite eqmod_cong in * by exact H. unfold cong. rewrite Z.sub_0_r. apply (prime_pow_divides (modulus F) (value F a) k).
    - now apply prime_modulus.
    - exact Hk.
    - apply cong0. now rewrite <- V. }
  destruct (mul_222_sign F a s E A L NS) as (w & R & Lw & I). exists w. split; [exact R|]. split; [exact Lw|]. rewrite <- I.
  assert (VP : eqmod F (value F a * value F s) (value F a ^ (k + 1))).
  { rewrite Z.pow_add_r, Z.pow_1_r, (Z.mul_comm (value F a ^ k)) by lia. apply eqmod_mul; auto. reflexivity. }
  unfold eqmod in *. rewrite VP. reflexivity.
Qed.
Lemma nonneg_loose F a : In F all_fields -> produced F a -> 0 <= value F a -> loose F a.
Proof.
  intros H A Pa. destruct (rep_value F _ _ a H A) as [V Bv]. pose proof (lowmod_pos F H). destruct A as (L & W & T). split; [exact L|]. split; [exact W|].
  split; [|apply T]. nia.
Qed.

(** ** Inversion, Legendre symbol and square root: one product decides *)
Lemma chain_factor : forall n A S, chain n A S = A * chain n 1 S.
Proof.
  induction n as [|n IH]; intros A S; cbn [chain]; [ring|]. rewrite IH, (IH (1 * (S * S))). ring.
Qed.
Lemma modulus_222 F : F = e222_117 -> modulus F = 2 ^ 222 - 117.
Proof. intros ->. reflexivity. Qed.
(** the result of the loop after the first product w *)
Lemma tail_222 F u a e j w s n i en : F = e222_117 -> String.eqb u "sqval" = false -> String.eqb u "_" = false ->
  lookup u en = Some (VArr w) -> lookup "sqval" en = Some (VArr s) -> loose F w -> pw F (value F a) (2 ^ j) s -> 0 <= j -> 0 <= e ->
  ~ eqmod F (value F a) 0 ->
  let E := e + 2 ^ (j + 1 + Z.of_nat n) - 2 ^ (j + 1) in
  exists en' r, (forall md fuel, (1 <= fuel)%nat -> loop_from md (call md no_base (fl_tbl F) fuel) "_" (chain_body u) n i en = Ok en') /\
    lookup u en' = Some (VArr r) /\ loose F r /\ (eqmod F (value F r) (value F a ^ E) <-> eqmod F (value F w) (value F a ^ e)) /\
    eqmod F (value F r) (value F w * value F a ^ (E - e)).
Proof.
  intros EF N1 N2 Lw Ls Pw (Ps & Vs) Hj He NZ E. pose proof (in_222 F EF) as H. pose proof (prime_modulus F H) as P.
  destruct (loop_222 F u EF N1 N2 n i en w s (value F w) (value F a ^ 2 ^ j) Lw Ls Pw Ps eq_refl Vs) as (en' & r & X & Lr & Pr & Vr).
  exists en', r. split; [exact X|]. split; [exact Lr|]. split; [exact Pr|].
  set (x := value F a) in *. set (D := 2 ^ (j + 1 + Z.of_nat n) - 2 ^ (j + 1)) in *.
  assert (HD : 0 <= D) by (unfold D; pose proof (Z.pow_le_mono_r 2 (j + 1) (j + 1 + Z.of_nat n)); lia).
  assert (T : chain n 1 (x ^ 2 ^ j) = x ^ D).
  { replace 1 with (x ^ 0) by apply Z.pow_0_r. rewrite chain_powers by lia. reflexivity. }
  assert (EE : x ^ E = x ^ e * x ^ D) by (rewrite <- Z.pow_add_r by lia; f_equal; unfold E, D; lia).
  rewrite chain_factor, T in Vr. split; [|replace (E - e) with D by (unfold E, D; ring); exact Vr]. rewrite EE. rewrite !eqmod_cong by exact H. rewrite eqmod_cong in * by exact H.
  assert (Nx : ~ (modulus F | x ^ D)) by (intros Q; apply NZ; unfold cong; rewrite Z.sub_0_r; apply (prime_pow_divides _ _ D P HD Q)).
  split; intros Q.
  - apply (cong_cancel (modulus F) _ _ (x ^ D) P Nx). rewrite !(Z.mul_comm (x ^ D)). now rewrite <- Vr.
  - rewrite Vr. now rewrite Q.
Qed.

Ltac run_step Hf := rewrite exec_cons; cbn [exec eval_args eval]; unfold get; cbn [lookup String.eqb Ascii.eqb Bool.eqb bind upd].

Lemma invert_222 F a : F = e222_117 -> produced F a -> ~ eqmod F (value F a) 0 ->
  exists i, runsd 2 F "F::invert" [VArr a] [] [VArr i] /\ loose F i /\ (eqmod F (value F i) (value F a ^ (modulus F - 2)) <-> 0 <= value F a).
Proof.
  intros E A NZ.
  destruct (pw_square1 F a E A) as (s1 & R1 & P1). destruct (pw_square F _ _ s1 E P1 ltac:(lia)) as (s2 & R2 & P2).
  destruct (pw_square F _ _ s2 E P2 ltac:(lia)) as (s3 & R3 & P3).
  destruct (first_222 F a _ s3 E A P3 NZ ltac:(lia)) as (w & Rw & Lw & Iw).
  destruct (pw_square F _ _ s3 E P3 ltac:(lia)) as (s4 & R4 & P4). destruct (pw_square F _ _ s4 E P4 ltac:(lia)) as (s5 & R5 & P5).
  destruct (pw_square F _ _ s5 E P5 ltac:(lia)) as (s6 & R6 & P6).
  destruct (tail_222 F "self" a 9 6 w s6 215 7 [("self", VArr w); ("sqval", VArr s6)] E eq_refl eq_refl eq_refl eq_refl Lw P6 ltac:(lia) ltac:(lia) NZ) as (en' & r & X & Lr & Pr & Ir & Vr).
  exists r. split; [|split; [exact Pr|rewrite (modulus_222 F E); exact (iff_trans Ir Iw)]].
  apply (call_step _ _ _ Src_e222_117.f_invert); [rewrite E; reflexivity|].
  intros md fuel Hf. unfold Src_e222_117.f_invert, run_func. cbn [f_params f_body f_rets List.length Nat.eqb combine].
  do 8 (run_step Hf;
    first [rewrite R1 by exact Hf|rewrite R2 by exact Hf|rewrite R3 by exact Hf|rewrite Rw by exact Hf|rewrite R4 by exact Hf|rewrite R5 by exact Hf|rewrite R6 by exact Hf|idtac]; cbn [bind write_back bind_rets fst snd upd String.eqb Ascii.eqb Bool.eqb]).
  rewrite exec_cons. rewrite (exec_for _ _ _ _ _ _ _ 7 222) by reflexivity.
  change (Z.to_nat (222 - 7)) with 215%nat. specialize (X md fuel Hf). unfold chain_body in X. rewrite X. cbn [bind exec_list evals gets]. unfold get. rewrite Lr. reflexivity.
Qed.
Lemma legendre_222 F a : F = e222_117 -> produced F a -> ~ eqmod F (value F a) 0 ->
  exists r, runsd 2 F "F::legendre" [VArr a] [VArr r] [VArr a] /\ loose F r /\ (eqmod F (value F r) (value F a ^ ((modulus F - 1) / 2)) <-> 0 <= value F a).
Proof.
  intros E A NZ. assert (M : (modulus F - 1) / 2 = 2 ^ 221 - 59) by (rewrite E; reflexivity). rewrite M in *.
  destruct (pw_square1 F a E A) as (s1 & R1 & P1). destruct (pw_square F _ _ s1 E P1 ltac:(lia)) as (s2 & R2 & P2).
  destruct (first_222 F a _ s2 E A P2 NZ ltac:(lia)) as (w & Rw & Lw & Iw).
  destruct (pw_square F _ _ s2 E P2 ltac:(lia)) as (s3 & R3 & P3). destruct (pw_square F _ _ s3 E P3 ltac:(lia)) as (s4 & R4 & P4).
  destruct (pw_square F _ _ s4 E P4 ltac:(lia)) as (s5 & R5 & P5).
  destruct (tail_222 F "out" a 5 5 w s5 215 6 [("self", VArr a); ("out", VArr w); ("sqval", VArr s5)] E eq_refl eq_refl eq_refl eq_refl Lw P5 ltac:(lia) ltac:(lia) NZ) as (en' & r & X & Lr & Pr & Ir & Vr).
  exists r. split; [|split; [exact Pr|exact (iff_trans Ir Iw)]].
  apply (call_step _ _ _ Src_e222_117.f_legendre); [rewrite E; reflexivity|]. intros md fuel Hf.
  assert (Y : exec_list md (call md no_base (fl_tbl F) fuel) (f_body Src_e222_117.f_legendre) [("self", VArr a)] = Ok en').
  { unfold Src_e222_117.f_legendre. cbn [f_body].
    do 8 (run_step Hf;
      first [rewrite R1 by exact Hf|rewrite R2 by exact Hf|rewrite R3 by exact Hf|rewrite Rw by exact Hf|rewrite R4 by exact Hf|rewrite R5 by exact Hf|idtac]; cbn [bind write_back bind_rets fst snd upd String.eqb Ascii.eqb Bool.eqb]).
    rewrite exec_cons. rewrite (exec_for _ _ _ _ _ _ _ 6 221) by reflexivity.
    change (Z.to_nat (221 - 6)) with 215%nat. specialize (X md fuel Hf). unfold chain_body in X. rewrite X. reflexivity. }
  unfold run_func. cbn [f_params f_rets Src_e222_117.f_legendre List.length Nat.eqb combine]. change (f_body _) with (f_body Src_e222_117.f_legendre).
  rewrite Y. cbn [bind evals eval gets]. unfold get. rewrite Lr.
  rewrite (frame_list _ _ "self" (f_body Src_e222_117.f_legendre) eq_refl _ _ Y). reflexivity.
Qed.
Lemma sqrt_222 F a : F = e222_117 -> produced F a -> ~ eqmod F (value F a) 0 ->
  exists r s w, runsd 2 F "F::sqrt" [VArr a] [VArr r] [VArr a] /\ loose F r /\
    runsd 1 F "F::square" [VArr a] [] [VArr s] /\ runsd 1 F "F::mul_assign(&F)" [VArr a; VArr s] [] [VArr w; VArr s] /\
    eqmod F (value F r) (value F w * value F a ^ ((modulus F + 1) / 4 - 3)) /\ (eqmod F (value F r) (value F a ^ ((modulus F + 1) / 4)) <-> 0 <= value F a).
Proof.
  intros E A NZ. assert (M : (modulus F + 1) / 4 = 2 ^ 220 - 29) by (rewrite E; reflexivity). rewrite M in *.
  destruct (pw_square1 F a E A) as (s1 & R1 & P1).
  destruct (first_222 F a _ s1 E A P1 NZ ltac:(lia)) as (w & Rw & Lw & Iw).
  destruct (pw_square F _ _ s1 E P1 ltac:(lia)) as (s2 & R2 & P2). destruct (pw_square F _ _ s2 E P2 ltac:(lia)) as (s3 & R3 & P3).
  destruct (pw_square F _ _ s3 E P3 ltac:(lia)) as (s4 & R4 & P4).
  destruct (tail_222 F "out" a 3 4 w s4 215 5 [("self", VArr a); ("out", VArr w); ("sqval", VArr s4)] E eq_refl eq_refl eq_refl eq_refl Lw P4 ltac:(lia) ltac:(lia) NZ) as (en' & r & X & Lr & Pr & Ir & Vr).
  exists r, s1, w. split; [|split; [exact Pr|split; [exact R1|split; [exact Rw|split; [exact Vr|exact (iff_trans Ir Iw)]]]]].
  apply (call_step _ _ _ Src_e222_117.f_sqrt); [rewrite E; reflexivity|]. intros md fuel Hf.
  assert (Y : exec_list md (call md no_base (fl_tbl F) fuel) (f_body Src_e222_117.f_sqrt) [("self", VArr a)] = Ok en').
  { unfold Src_e222_117.f_sqrt. cbn [f_body].
    do 7 (run_step Hf;
      first [rewrite R1 by exact Hf|rewrite R2 by exact Hf|rewrite R3 by exact Hf|rewrite Rw by exact Hf|rewrite R4 by exact Hf|idtac]; cbn [bind write_back bind_rets fst snd upd String.eqb Ascii.eqb Bool.eqb]).
    rewrite exec_cons. rewrite (exec_for _ _ _ _ _ _ _ 5 220) by reflexivity.
    change (Z.to_nat (220 - 5)) with 215%nat. specialize (X md fuel Hf). unfold chain_body in X. rewrite X. reflexivity. }
  unfold run_func. cbn [f_params f_rets Src_e222_117.f_sqrt List.length Nat.eqb combine]. change (f_body _) with (f_body Src_e222_117.f_sqrt).
  rewrite Y. cbn [bind evals eval gets]. unfold get. rewrite Lr.
  rewrite (frame_list _ _ "self" (f_body Src_e222_117.f_sqrt) eq_refl _ _ Y). reflexivity.
Qed.

(** ** What this means *)
Lemma three_mod_4_222 F : F = e222_117 -> modulus F mod 4 = 3.
Proof. intros ->. reflexivity. Qed.
Lemma nz_222 F x : In F all_fields -> ~ eqmod F x 0 -> ~ (modulus F | x).
Proof. intros H N D. apply N. rewrite eqmod_cong by exact H. now apply div0. Qed.
Lemma inverse_iff F x i : In F all_fields -> ~ eqmod F x 0 -> (eqmod F (i * x) 1 <-> eqmod F i (x ^ (modulus F - 2))).
Proof.
  intros H N. pose proof (prime_modulus F H) as P. pose proof (nz_222 F x H N) as D. pose proof (fermat_inverse _ x P D) as FI.
  rewrite !eqmod_cong by exact H. split; intros E.
  - apply (cong_cancel (modulus F) _ _ x P D). rewrite !(Z.mul_comm x). rewrite E. symmetry. exact FI.
  - rewrite E. exact FI.
Qed.
Lemma one_apart F : In F all_fields -> ~ (modulus F | 1).
Proof. intros H D. pose proof (prime_ge_2 _ (prime_modulus F H)). apply Z.divide_1_r_nonneg in D; lia. Qed.
Lemma invert_claim_222 F a : F = e222_117 -> produced F a -> ~ eqmod F (value F a) 0 ->
  exists i, computes_unary F "F::invert" "F::inverted" a i /\ loose F i /\ (eqmod F (value F i * value F a) 1 <-> 0 <= value F a).
Proof.
  intros E A NZ. pose proof (in_222 F E) as H. destruct (invert_222 F a E A NZ) as (i & R & Li & I).
  exists i. split; [split; [apply (runsd_runs 2)|apply (runsd_runs 3)]; [lia|exact R|lia|now apply inverted_of]|]. split; [exact Li|].
  refine (iff_trans _ I). now apply inverse_iff.
Qed.
Lemma div_claim_222 F a b : F = e222_117 -> produced F a -> produced F b -> ~ eqmod F (value F b) 0 ->
  exists q, computes F "div" a b q /\ loose F q /\
    (0 <= value F b -> (eqmod F (value F q * value F b) (value F a) <-> 0 <= value F a)) /\
    (value F b < 0 -> 0 <= value F a -> ~ eqmod F (value F a) 0 -> ~ eqmod F (value F q * value F b) (value F a)).
Proof.
  intros E A Bb NZ. pose proof (in_222 F E) as H. pose proof (prime_modulus F H) as P.
  destruct (invert_222 F b E Bb NZ) as (i & R & Li & I). pose proof (inverse_iff F (value F b) (value F i) H NZ) as II.
  assert (WA := produced_wide F a H A). assert (WI := loose_wide F i H Li).
  destruct (wide_runs F a i (or_introl E) WA WI) as (q & Rq & Lq). exists q.
  split; [apply (computes_intro F 4); [auto|cbn; tauto|lia|exact (div_of F a b i q H R Rq)]|]. split; [exact Lq|]. split.
  - intros Pb. assert (V : eqmod F (value F i * value F b) 1) by (apply II, I, Pb).
    assert (NI : ~ eqmod F (value F i) 0).
    { intros Z0. apply (one_apart F H). rewrite eqmod_cong in * by exact H. apply cong0. rewrite <- V, Z0. apply cong_eq. ring. }
    destruct (mul_222_sign F a i E A Li NI) as (q' & Rq' & _ & J). destruct (runs_det F 1 _ _ _ _ _ _ Rq (runsd_runs 1 _ _ _ _ _ ltac:(lia) Rq') ltac:(lia)) as (_ & D). injection D as ->.
    rewrite <- J. rewrite !eqmod_cong in * by exact H. split; intros Q.
    + apply (cong_cancel (modulus F) _ _ (value F b) P); [now apply nz_222; [|rewrite eqmod_cong by exact H]|].
      rewrite (Z.mul_comm (value F b)). rewrite Q. rewrite (Z.mul_comm (value F b)), <- Z.mul_assoc, V. apply cong_eq. ring.
    + rewrite Q, <- Z.mul_assoc, V. apply cong_eq. ring.
  - intros Nb Pa Na Q.
    assert (NV : ~ eqmod F (value F i * value F b) 1) by (intros V; apply II, I in V; lia). apply NV. clear NV.
    assert (La : loose F a) by now apply nonneg_loose.
    destruct (mul_222 F a i E La Li) as (q' & Rq' & _ & J). destruct (runs_det F 1 _ _ _ _ _ _ Rq (runsd_runs 1 _ _ _ _ _ ltac:(lia) Rq') ltac:(lia)) as (_ & D). injection D as ->.
    pose proof (nz_222 F _ H Na) as Da. rewrite !eqmod_cong in * by exact H. rewrite J in Q.
    apply (cong_cancel (modulus F) _ _ (value F a) P Da). rewrite Z.mul_1_r, Z.mul_assoc. exact Q.
Qed.
Lemma in_pow_222 F : F = e222_117 -> In F pow_fields.
Proof. intros ->. cbn. tauto. Qed.
Lemma legendre_claim_222 F a : F = e222_117 -> produced F a -> ~ eqmod F (value F a) 0 ->
  exists r, runs F "F::legendre" [VArr a] [VArr r] [VArr a] /\ loose F r /\
    (is_square F (value F a) -> (eqmod F (value F r) 1 <-> 0 <= value F a)) /\
    (~ is_square F (value F a) -> (eqmod F (value F r) (-1) <-> 0 <= value F a)).
Proof.
  intros E A NZ. pose proof (in_222 F E) as H. destruct (legendre_222 F a E A NZ) as (r & R & Lr & I).
  exists r. split; [apply (runsd_runs 2); [lia|exact R]|]. split; [exact Lr|].
  destruct (euler F (value F a) (in_pow_222 F E) NZ) as [[Q V]|[Q V]]; (split; intros Q'; [try contradiction|try contradiction]); unfold eqmod in *; rewrite <- V; exact I.
Qed.

(** ** The root that is itself a square *)
Lemma principal p x r : prime p -> p mod 4 = 3 -> sq_mod p x -> ~ (p | x) -> (cong p (r * r) x /\ sq_mod p r <-> cong p r (x ^ ((p + 1) / 4))).
Proof.
  intros P M S NX. pose proof (prime_ge_2 p P) as P2.
  assert (P3 : 3 <= p) by (destruct (Z.eq_dec p 2) as [->|]; [discriminate M|lia]).
  assert (O : p mod 2 = 1) by (rewrite (Z.div_mod p 4), M by lia; replace (4 * (p / 4) + 3) with (1 + (2 * (p / 4) + 1) * 2) by ring; now rewrite Z.mod_add).
  set (q := x ^ ((p + 1) / 4)).
  assert (Q : cong p (q * q) x) by (apply root_3_mod_4; auto; now apply euler_square).
  assert (SQ : sq_mod p q).
  { destruct S as [z Z0]. exists (z ^ ((p + 1) / 4)). unfold q. rewrite <- Z.pow_mul_l. now apply cong_pow. }
  split.
  - intros (R & SR).
    assert (D : (p | (r - q) * (r + q))).
    { replace ((r - q) * (r + q)) with (r * r - q * q) by ring. change (cong p (r * r) (q * q)). now rewrite R, Q. }
    apply prime_mult in D; auto. destruct D as [D|D]; [exact D|]. exfalso.
    assert (RQ : cong p r (- q)) by (unfold cong; now replace (r - - q) with (r + q) by ring).
    assert (NQ : ~ (p | q)) by (intros N; apply NX; apply cong0; rewrite <- Q; apply div0; now apply Z.divide_mul_l).
    assert (NR : ~ (p | r)) by (intros N; apply NX; apply cong0; rewrite <- R; apply div0; now apply Z.divide_mul_l).
    pose proof (euler_square p r P O NR SR) as E1. pose proof (euler_square p q P O NQ SQ) as E2.
    apply (one_not_minus_one p); [lia|]. rewrite <- E1 at 1.
    rewrite (cong_pow p r (- q) _ RQ). rewrite Z.pow_opp_odd; [now rewrite E2|].
    exists (p / 4). rewrite (Z.div_mod p 4) at 1 by lia. rewrite M. replace (4 * (p / 4) + 3 - 1) with ((2 * (p / 4) + 1) * 2) by ring. now rewrite Z.div_mul.
  - intros R. split; [now rewrite R|]. destruct SQ as [z Z0]. exists z. now rewrite Z0, R.
Qed.
Lemma sqrt_claim_222 F a : F = e222_117 -> produced F a -> is_square F (value F a) -> ~ eqmod F (value F a) 0 ->
  exists r, runs F "F::sqrt" [VArr a] [VArr r] [VArr a] /\ loose F r /\
    (eqmod F (value F r * value F r) (value F a) /\ is_square F (value F r) <-> 0 <= value F a).
Proof.
  intros E A S NZ. pose proof (in_222 F E) as H. destruct (sqrt_222 F a E A NZ) as (r & _ & _ & R & Lr & _ & _ & _ & I).
  exists r. split; [apply (runsd_runs 2); [lia|exact R]|]. split; [exact Lr|]. refine (iff_trans _ I).
  rewrite is_square_mod in * by exact H. rewrite !eqmod_cong by exact H.
  apply principal; auto; [now apply prime_modulus|now apply three_mod_4_222|now apply nz_222].
Qed.
Lemma principal_claim F a : In F all_fields -> modulus F mod 4 = 3 -> pow_safe F a -> is_square F (value F a) ->
  exists r, runs F "F::sqrt" [VArr a] [VArr r] [VArr a] /\ produced F r /\ eqmod F (value F r * value F r) (value F a) /\ is_square F (value F r) /\
    forall s, eqmod F (s * s) (value F a) -> is_square F s -> eqmod F s (value F r).
Proof.
  intros H M S Q. pose proof (safe_pow F a H S) as HP. pose proof (prime_modulus F H) as P. pose proof (prime_ge_2 _ P) as P2.
  assert (P3 : 3 <= modulus F) by (pose proof (Z.div_mod (modulus F) 4); pose proof (Z.div_pos (modulus F) 4); lia).
  destruct (three_or_five F HP) as [T|T]; [|exfalso; pose proof (five_mod_8 F T); pose proof (Z.div_mod (modulus F) 8); pose proof (Z.div_mod (modulus F) 4); lia].
  destruct (sqrt3_power F a T S) as (r & R & Sr & Fr & Vr). apply (runsd_runs 3) in R; [|lia]. exists r. split; [exact R|]. split; [now apply fresh_produced|].
  rewrite is_square_mod in * by exact H. rewrite eqmod_cong in * by exact H.
  destruct (eqmod_dec F (value F a) 0) as [Z0|NZ].
  - rewrite eqmod_cong in Z0 by exact H. assert (RZ : cong (modulus F) (value F r) 0) by (rewrite Vr; apply zero_pow; auto; [apply Z.div_str_pos; lia|now apply cong0]).
    split; [rewrite RZ, Z0; reflexivity|]. split; [exists 0; now rewrite RZ|]. intros s. rewrite !eqmod_cong by exact H. intros E _. rewrite RZ.
    rewrite Z0 in E. apply cong0 in E. apply prime_mult in E; auto. apply div0. tauto.
  - pose proof (nz_222 F _ H NZ) as ND. destruct (proj2 (principal (modulus F) (value F a) (value F r) P M Q ND) Vr) as (V1 & V2).
    split; [exact V1|]. split; [exact V2|]. intros s E SS. rewrite is_square_mod in * by exact H. rewrite eqmod_cong in * by exact H. rewrite Vr. apply principal; auto.
Qed.

(** ** Witnesses *)
(** sqrt (0 - 2) in mod_e222_117: -2 is a square, the result is not a root of it *)
Definition sqrt_root : Z := 3457268024565454094555233497572851004844115962031866129354612970304.
Definition sqrt_witness (F : fld) : bool :=
  let t := op1 F "add" (w1 F) (w1 F) in let d := op1 F "sub" (w0 F) t in let s := asg F "F::square" [VArr d] in let w := op1 F "mul" d s in
  getsb F "F::zero" (w0 F) && getsb F "F::one" (w1 F) && computesb F "add" (w1 F) (w1 F) t && computesb F "sub" (w0 F) t d &&
  runsb F "F::square" [VArr d] [] [VArr s] && runsb F "F::mul_assign(&F)" [VArr d; VArr s] [] [VArr w; VArr s] && repb F (- 2 ^ fl_tb F - 1) (2 * 2 ^ fl_tb F + (fl_C F - 1)) d &&
  (value F d =? -2) && eqmodb F (sqrt_root * sqrt_root) (value F d) && negb (eqmodb F (value F w * value F w) 64).
Lemma sqrt_wrong_222 F : F = e222_117 -> exists zero one two d r,
  runs F "F::zero" [] [VArr zero] [] /\ runs F "F::one" [] [VArr one] [] /\ computes F "add" one one two /\ computes F "sub" zero two d /\
  runs F "F::sqrt" [VArr d] [VArr r] [VArr d] /\ is_square F (value F d) /\ ~ eqmod F (value F r * value F r) (value F d).
Proof.
  intros E. pose proof (in_222 F E) as H. pose proof (prime_modulus F H) as P. pose proof (odd_modulus F H) as O.
  assert (K : sqrt_witness F = true) by (rewrite E; vm_compute; reflexivity).
  unfold sqrt_witness in K. cbv zeta in K. unfold getsb in K. revert K.
  set (t := op1 F "add" (w1 F) (w1 F)). set (d := op1 F "sub" (w0 F) t). set (s := asg F "F::square" [VArr d]). set (w := op1 F "mul" d s).
  intros K. parts K. apply Z.eqb_eq in K2. apply eqmodb_yes in K1. apply runsb_ok in K5, K4.
  assert (A : produced F d) by (apply repb_ok; exact K3).
  assert (NZ : ~ eqmod F (value F d) 0) by (rewrite K2, E; vm_compute; discriminate).
  destruct (sqrt_222 F d E A NZ) as (r & s' & w' & R & Lr & Rs & Rw & Vr & _).
  destruct (runs_det F 1 _ _ _ _ _ _ Rs K5 ltac:(lia)) as (_ & D). injection D as ->.
  destruct (runs_det F 1 _ _ _ _ _ _ Rw K4 ltac:(lia)) as (_ & D). injection D as ->.
  exists (w0 F), (w1 F), t, d, r. split; [apply runsb_ok; exact K|]. split; [apply runsb_ok; exact K8|]. split; [apply computesb_ok; exact K7|]. split; [apply computesb_ok; exact K6|].
  split; [apply (runsd_runs 2); [lia|exact R]|].
  assert (SQ : is_square F (value F d)) by (exists sqrt_root; exact K1). split; [exact SQ|]. intros Q.
  apply negb_true_iff, eqmodb_no in K0. apply K0. clear K0.
  pose proof (nz_222 F _ H NZ) as ND. rewrite is_square_mod in SQ by exact H. pose proof (euler_square (modulus F) _ P O ND SQ) as EU.
  pose proof (root_3_mod_4 (modulus F) (value F d) (three_mod_4_222 F E) ltac:(rewrite E; vm_compute; discriminate) EU) as RT.
  rewrite eqmod_cong in * by exact H. set (x := value F d) in *.
  set (k := (modulus F + 1) / 4) in *. assert (HK : 3 <= k) by (unfold k; rewrite E; vm_compute; discriminate).
  assert (NX : ~ (modulus F | x ^ (k - 3) * x ^ (k - 3))).
  { intros D. apply prime_mult in D; auto. apply ND. destruct D as [D|D]; (apply (prime_pow_divides _ _ (k - 3) P); [lia|exact D]). }
  apply (cong_cancel (modulus F) _ _ (x ^ (k - 3) * x ^ (k - 3)) P NX).
  replace 64 with (x ^ 3 * x ^ 3) by (rewrite K2; reflexivity).
  replace (x ^ (k - 3) * x ^ (k - 3) * (x ^ 3 * x ^ 3)) with ((x ^ (k - 3) * x ^ 3) * (x ^ (k - 3) * x ^ 3)) by ring.
  assert (EX : x ^ (k - 3) * x ^ 3 = x ^ k) by (rewrite <- Z.pow_add_r by lia; f_equal; ring). rewrite EX.
  transitivity x; [|symmetry; exact RT]. transitivity (value F r * value F r); [|exact Q]. rewrite Vr. apply cong_eq. ring.
Qed.

(** (0 - 1) in mod_e251_9: its square is 1, its product with 1 is wrong, and the rest multiplies by 1 *)
Definition one_squares (F : fld) : bool :=
  let o := w1 F in let d := op1 F "sub" (w0 F) o in let w := op1 F "mul" d o in
  getsb F "F::zero" (w0 F) && getsb F "F::one" o && computesb F "sub" (w0 F) o d &&
  runsb F "F::square" [VArr d] [] [VArr o] && runsb F "F::square" [VArr o] [] [VArr o] && runsb F "F::mul_assign(&F)" [VArr d; VArr o] [] [VArr w; VArr o] &&
  repb F (- 2 ^ fl_tb F - 1) (2 * 2 ^ fl_tb F + (fl_C F - 1)) d && repb F 0 (2 * 2 ^ fl_tb F + (fl_C F - 1)) o && (value F d =? -1) && (value F o =? 1) &&
  (value F w mod modulus F =? 323).
Lemma loop_one F u o : F = e251_9 -> String.eqb u "sqval" = false -> String.eqb u "_" = false ->
  runsd 1 F "F::square" [VArr o] [] [VArr o] -> value F o = 1 -> loose F o ->
  forall n i en a, lookup u en = Some (VArr a) -> lookup "sqval" en = Some (VArr o) -> loose F a ->
  exists en' r, (forall md fuel, (1 <= fuel)%nat -> loop_from md (call md no_base (fl_tbl F) fuel) "_" (chain_body u) n i en = Ok en') /\
    lookup u en' = Some (VArr r) /\ loose F r /\ eqmod F (value F r) (value F a).
Proof.
  intros E N1 N2 Rs V1 Po. pose proof (in_251 F E) as H. induction n as [|n IH]; intros i en a La Ls Pa; cbn [loop_from] in *.
  - exists en, a. split; [intros; reflexivity|]. split; [exact La|]. split; [exact Pa|reflexivity].
  - destruct (mul_below F a o E Pa Po) as (a' & Ra & Pa' & Va).
    { rewrite V1, Z.mul_1_r. destruct (rep_value F _ _ a H Pa) as [V B]. destruct Pa as (_ & _ & T). revert V B T. rewrite E.
      change (lowmod e251_9) with (2 ^ 224). change (fl_tb e251_9) with 27. change (fl_C e251_9) with 9. change (2 ^ 27) with 134217728. intros V B T.
      apply Z.lt_trans with (2 ^ 254); [|reflexivity]. change (2 ^ 254) with (2 ^ 224 * 1073741824). nia. }
    rewrite V1, Z.mul_1_r in Va.
    set (en1 := upd u (VArr a') (upd "sqval" (VArr o) (upd "_" (VInt i) en))).
    destruct (IH (i + 1) en1 a') as (en' & r & X & Lr & Pr & Vr); auto.
    { unfold en1. apply lookup_upd_eq. }
    { unfold en1. rewrite lookup_upd_ne by (rewrite String.eqb_sym; exact N1). apply lookup_upd_eq. }
    exists en', r. split; [|split; [exact Lr|split; [exact Pr|exact (eq_trans Vr Va)]]]. intros md fuel Hf.
    assert (Y : exec_list md (call md no_base (fl_tbl F) fuel) (chain_body u) (upd "_" (VInt i) en) = Ok en1).
    { unfold chain_body. rewrite exec_cons. cbn [exec eval_args eval]. unfold get.
      rewrite (lookup_upd_ne "sqval" "_") by reflexivity. rewrite Ls. cbn [bind]. rewrite Rs by exact Hf. cbn [bind write_back bind_rets fst snd].
      rewrite exec_cons. cbn [exec eval_args eval]. unfold get.
      rewrite (lookup_upd_ne u "sqval") by exact N1. rewrite (lookup_upd_ne u "_") by exact N2. rewrite La, lookup_upd_eq. cbn [bind].
      rewrite Ra by exact Hf. reflexivity. }
    rewrite Y. cbn [bind]. apply X. exact Hf.
Qed.
Lemma one_facts F : F = e251_9 -> exists z o d w, runs F "F::zero" [] [VArr z] [] /\ runs F "F::one" [] [VArr o] [] /\ computes F "sub" z o d /\
  value F d = -1 /\ value F o = 1 /\ eqmod F (value F w) 323 /\ loose F o /\ loose F w /\
  runsd 1 F "F::square" [VArr d] [] [VArr o] /\ runsd 1 F "F::square" [VArr o] [] [VArr o] /\ runsd 1 F "F::mul_assign(&F)" [VArr d; VArr o] [] [VArr w; VArr o].
Proof.
  intros E. pose proof (in_251 F E) as H.
  assert (K : one_squares F = true) by (rewrite E; vm_compute; reflexivity).
  unfold one_squares in K. cbv zeta in K. unfold getsb in K. revert K.
  set (o := w1 F). set (d := op1 F "sub" (w0 F) o). set (w := op1 F "mul" d o). intros K. parts K.
  apply Z.eqb_eq in K0, K1, K2. apply runsb_ok in K7, K6, K5. assert (A : produced F d) by (apply repb_ok; exact K4). assert (Lo : loose F o) by (apply repb_ok; exact K3).
  destruct (square_two F d (or_intror E) A) as (o1 & R1 & _). destruct (runs_det F 1 _ _ _ _ _ _ R1 K7 ltac:(lia)) as (_ & D). injection D as ->.
  destruct (square_251 F o E Lo) as (o1 & R2 & _). destruct (runs_det F 1 _ _ _ _ _ _ R2 K6 ltac:(lia)) as (_ & D). injection D as ->.
  destruct (wide_runs F d o (or_intror E) (produced_wide F d H A) (loose_wide F o H Lo)) as (w1 & R3 & Lw). destruct (runs_det F 1 _ _ _ _ _ _ R3 K5 ltac:(lia)) as (_ & D). injection D as ->.
  exists (w0 F), o, d, w. split; [apply runsb_ok; exact K|]. split; [apply runsb_ok; exact K9|]. split; [apply computesb_ok; exact K8|].
  repeat (split; [assumption|]). split; [|auto 6]. unfold eqmod. rewrite K0, E. reflexivity.
Qed.
Lemma invert_wrong_251 F : F = e251_9 -> exists zero one d i,
  runs F "F::zero" [] [VArr zero] [] /\ runs F "F::one" [] [VArr one] [] /\ computes F "sub" zero one d /\ value F d = -1 /\
  computes_unary F "F::invert" "F::inverted" d i /\ ~ eqmod F (value F i * value F d) 1.
Proof.
  intros E. pose proof (in_251 F E) as H. destruct (one_facts F E) as (z & o & d & w & Rz & Ro & Rd & Vd & Vo & Vw & Lo & Lw & R1 & R2 & R3).
  destruct (loop_one F "self" o E eq_refl eq_refl R2 Vo Lo 247 4 [("self", VArr w); ("sqval", VArr o)] w eq_refl eq_refl Lw) as (en' & r & X & Lr & Pr & Vr).
  assert (R : runsd 2 F "F::invert" [VArr d] [] [VArr r]).
  { apply (call_step _ _ _ Src_e251_9.f_invert); [rewrite E; reflexivity|].
    intros md fuel Hf. unfold Src_e251_9.f_invert, run_func. cbn [f_params f_body f_rets List.length Nat.eqb combine].
    do 5 (run_step Hf; first [rewrite R1 by exact Hf|rewrite R2 by exact Hf|rewrite R3 by exact Hf|idtac]; cbn [bind write_back bind_rets fst snd upd String.eqb Ascii.eqb Bool.eqb]).
    rewrite exec_cons. rewrite (exec_for _ _ _ _ _ _ _ 4 251) by reflexivity.
    change (Z.to_nat (251 - 4)) with 247%nat. specialize (X md fuel Hf). unfold chain_body in X. rewrite X. cbn [bind exec_list evals gets]. unfold get. rewrite Lr. reflexivity. }
  exists z, o, d, r. do 4 (split; [assumption|]). split; [split; [apply (runsd_runs 2)|apply (runsd_runs 3)]; [lia|exact R|lia|now apply inverted_of]|].
  assert (V : eqmod F (value F r * value F d) (323 * -1)) by (apply eqmod_mul; [exact H|exact (eq_trans Vr Vw)|rewrite Vd; reflexivity]).
  intros Q. unfold eqmod in *. rewrite V in Q. revert Q. rewrite E. vm_compute. discriminate.
Qed.
Lemma legendre_wrong_251 F : F = e251_9 -> exists zero one d r,
  runs F "F::zero" [] [VArr zero] [] /\ runs F "F::one" [] [VArr one] [] /\ computes F "sub" zero one d /\ value F d = -1 /\
  runs F "F::legendre" [VArr d] [VArr r] [VArr d] /\ ~ eqmod F (value F r) 1 /\ ~ eqmod F (value F r) (-1) /\ ~ eqmod F (value F r) 0.
Proof.
  intros E. pose proof (in_251 F E) as H. destruct (one_facts F E) as (z & o & d & w & Rz & Ro & Rd & Vd & Vo & Vw & Lo & Lw & R1 & R2 & R3).
  destruct (loop_one F "out" o E eq_refl eq_refl R2 Vo Lo 247 3 [("self", VArr d); ("out", VArr w); ("sqval", VArr o)] w eq_refl eq_refl Lw) as (en' & r & X & Lr & Pr & Vr).
  assert (R : runsd 2 F "F::legendre" [VArr d] [VArr r] [VArr d]).
  { apply (call_step _ _ _ Src_e251_9.f_legendre); [rewrite E; reflexivity|]. intros md fuel Hf.
    assert (Y : exec_list md (call md no_base (fl_tbl F) fuel) (f_body Src_e251_9.f_legendre) [("self", VArr d)] = Ok en').
    { unfold Src_e251_9.f_legendre. cbn [f_body].
      do 5 (run_step Hf; first [rewrite R1 by exact Hf|rewrite R2 by exact Hf|rewrite R3 by exact Hf|idtac]; cbn [bind write_back bind_rets fst snd upd String.eqb Ascii.eqb Bool.eqb]).
      rewrite exec_cons. rewrite (exec_for _ _ _ _ _ _ _ 3 250) by reflexivity.
      change (Z.to_nat (250 - 3)) with 247%nat. specialize (X md fuel Hf). unfold chain_body in X. rewrite X. reflexivity. }
    unfold run_func. cbn [f_params f_rets Src_e251_9.f_legendre List.length Nat.eqb combine]. change (f_body _) with (f_body Src_e251_9.f_legendre).
    rewrite Y. cbn [bind evals eval gets]. unfold get. rewrite Lr.
    rewrite (frame_list _ _ "self" (f_body Src_e251_9.f_legendre) eq_refl _ _ Y). reflexivity. }
  exists z, o, d, r. do 4 (split; [assumption|]). split; [apply (runsd_runs 2); [lia|exact R]|].
  assert (V : eqmod F (value F r) 323) by exact (eq_trans Vr Vw).
  unfold eqmod in *. rewrite V, E. split; [|split]; vm_compute; discriminate.
Qed.
(** mod_e251_9: the first step of the square root is a square, so that signs do not matter *)
Lemma sqrt_251' F a : F = e251_9 -> produced F a -> powers_apart F (value F a) ((modulus F + 1) / 4) ->
  exists r, runsd 3 F "F::sqrt" [VArr a] [VArr r] [VArr a] /\ power251 F a ((modulus F + 1) / 4) r.
Proof.
  intros E L O. assert (M : (modulus F + 1) / 4 = 2 ^ 249 - 2) by (rewrite E; reflexivity). rewrite M in *.
  destruct (square_two F a (or_intror E) L) as (s2 & R2 & L2 & V2).
  assert (P2 : power251 F a 2 s2) by (split; [exact L2|]; refine (eq_trans V2 _); f_equal; ring).
  pose proof (squared_runs F a s2 (in_251 F E) R2) as R2'.
  destruct (power_loop F a (2 ^ 249 - 2) "out" E eq_refl eq_refl O 247 2 [("self", VArr a); ("out", VArr s2); ("sqval", VArr s2)] 2 1 s2 s2) as (en' & r & X & Lr & Pr); auto; try lia.
  exists r. split; [|exact Pr]. apply (call_step _ _ _ Src_e251_9.f_sqrt); [rewrite E; reflexivity|].
  intros md fuel Hf.
  assert (Y : exec_list md (call md no_base (fl_tbl F) fuel) (f_body Src_e251_9.f_sqrt) [("self", VArr a)] = Ok en').
  { unfold Src_e251_9.f_sqrt. cbn [f_body].
    do 2 (rewrite exec_cons; cbn [exec eval_args eval]; unfold get; cbn [lookup String.eqb Ascii.eqb Bool.eqb bind upd];
      first [rewrite R2' by exact Hf|idtac]; cbn [bind write_back bind_rets fst snd upd String.eqb Ascii.eqb Bool.eqb]).
    rewrite exec_cons. rewrite (exec_for _ _ _ _ _ _ _ 2 249) by reflexivity.
    change (Z.to_nat (249 - 2)) with 247%nat. specialize (X md fuel ltac:(lia)). unfold chain_body in X. rewrite X. reflexivity. }
  unfold run_func. cbn [f_params f_rets Src_e251_9.f_sqrt List.length Nat.eqb combine]. change (f_body _) with (f_body Src_e251_9.f_sqrt).
  rewrite Y. cbn [bind evals eval gets]. unfold get. rewrite Lr.
  rewrite (frame_list _ _ "self" (f_body Src_e251_9.f_sqrt) eq_refl _ _ Y). reflexivity.
Qed.
Lemma sqrt_claim_251' F a : F = e251_9 -> produced F a -> powers_apart F (value F a) ((modulus F + 1) / 4) ->
  exists r, runs F "F::sqrt" [VArr a] [VArr r] [VArr a] /\ loose F r /\
    (is_square F (value F a) -> eqmod F (value F r * value F r) (value F a) /\ is_square F (value F r)) /\
    (~ is_square F (value F a) -> eqmod F (value F r * value F r) (- value F a)).
Proof.
  intros E L OP. pose proof (in_251 F E) as H. pose proof (prime_modulus F H) as P. pose proof (big_251 F E) as P3.
  destruct (sqrt_251' F a E L OP) as (r & R & Lr & Vr). exists r. split; [apply (runsd_runs 3); [lia|exact R]|]. split; [exact Lr|].
  rewrite !is_square_mod, !eqmod_cong by exact H. rewrite eqmod_cong in Vr by exact H.
  destruct (eqmod_dec F (value F a) 0) as [Z0|NZ].
  - rewrite eqmod_cong in Z0 by exact H. assert (RZ : cong (modulus F) (value F r) 0) by (rewrite Vr; apply zero_pow; auto; [apply Z.div_str_pos; lia|now apply cong0]).
    split; [intros _; split; [rewrite RZ, Z0; reflexivity|exists 0; now rewrite RZ]|]. intros N. exfalso. apply N. exists 0. now rewrite Z0.
  - pose proof (nz_222 F _ H NZ) as ND. split.
    + intros Q. apply principal; auto. now apply three_mod_4_251.
    + intros N. assert (E1 : cong (modulus F) (value F a ^ ((modulus F - 1) / 2)) (-1)).
      { destruct (euler_251 F (value F a) E NZ) as [[Q _]|[_ E1]]; [exfalso; apply N; now apply is_square_mod|now apply eqmod_cong]. }
      rewrite Vr. rewrite <- Z.pow_add_r by (apply Z.div_pos; lia).
      replace ((modulus F + 1) / 4 + (modulus F + 1) / 4) with (Z.succ ((modulus F - 1) / 2)) by (rewrite E; reflexivity).
      rewrite Z.pow_succ_r by (apply Z.div_pos; lia). rewrite E1. apply cong_eq. ring.
Qed.
(** a negative argument with the same powers as [root19] *)
Lemma case_251_negative e : 0 <= e -> exists a, produced e251_9 a /\ value e251_9 a < 0 /\ is_square e251_9 (value e251_9 a) /\ ~ eqmod e251_9 (value e251_9 a) 0 /\
  powers_apart e251_9 (value e251_9 a) e.
Proof.
  intros He. destruct (root_case e He) as (_ & _ & Q & N & O). pose proof (in_251 e251_9 eq_refl) as H.
  exists (to_words e251_9 (root19 - modulus e251_9)). 
  assert (V : value e251_9 (to_words e251_9 (root19 - modulus e251_9)) = root19 - modulus e251_9) by now apply to_words_value.
  split; [apply repb_ok; vm_compute; reflexivity|]. rewrite V. split; [reflexivity|].
  assert (E : eqmod e251_9 root19 (root19 - modulus e251_9)) by (vm_compute; reflexivity).
  split; [destruct Q as [y Y]; exists y; exact (eq_trans Y E)|]. split; [intros Z0; apply N; exact (eq_trans E Z0)|].
  intros k Hk T M. eapply apart_mod; [| |exact (O k Hk T M)]; apply eqmod_pow; auto; [apply Z.mod_pos_bound, Z.pow_pos_nonneg; lia|apply Z.pow_nonneg; lia].
Qed.
(** zero minus one, and its root modulo 2^222 - 117 does not exist; minus two has one *)
Lemma case_222_negative : produced e222_117 (to_words e222_117 (-2)) /\ value e222_117 (to_words e222_117 (-2)) = -2 /\
  is_square e222_117 (-2) /\ ~ eqmod e222_117 (-2) 0.
Proof.
  split; [apply repb_ok; vm_compute; reflexivity|]. split; [apply to_words_value; cbn; tauto|]. split; [exists sqrt_root; vm_compute; reflexivity|vm_compute; discriminate].
Qed.
