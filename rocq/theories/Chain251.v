(** Inversion, Legendre symbol and square root in mod_e251_9.  Its products are
    right below 2^504, and a product can leave a value of 2^252 or a little
    more; the residue of such a value is small, so the powers are right unless
    two values with residues near zero are multiplied on the way ([apart]). *)
From Coq Require Import ZArith List String Lia Bool Znumtheory Setoid.
From Verif Require Import Lang Poly Kernel Fields Kfacts Ops Words Codec Normalize Methods Surface Forms Power NumTheory Arith Roots Refute Safe Exact.
From Verif Require Src_e221_3 Src_e251_9.
Import ListNotations.
Local Open Scope string_scope.
Local Open Scope Z_scope.

Lemma in_251 F : F = e251_9 -> In F all_fields.
Proof. intros ->. cbn. tauto. Qed.
Lemma modulus_251 F : F = e251_9 -> modulus F = 2 ^ 251 - 9.
Proof. intros ->. reflexivity. Qed.

Lemma ordinary_summand F a : F = e251_9 -> loose F a -> ordinary F (value F a) -> summand F a.
Proof.
  intros E L O. pose proof (in_251 F E) as H. unfold loose, summand in *. destruct (rep_value F _ _ a H L) as [V B].
  destruct L as (L1 & L2 & L3). split; [exact L1|]. split; [exact L2|]. split; [lia|].
  unfold ordinary in O. rewrite (modulus_251 F E) in O. revert L3 V B O. rewrite E. generalize (top e251_9 a) as t. intros t.
  change (lowmod e251_9) with (2 ^ 224). change (fl_tb e251_9) with 27. change (fl_C e251_9) with 9.
  generalize (value e251_9 a) as v. intros v L3 V B O.
  destruct (Z_le_gt_dec t (2 * 2 ^ 27 - 1)) as [|G]; [assumption|exfalso].
  assert (M : v mod (2 ^ 251 - 9) = v - 2 * (2 ^ 251 - 9)).
  { symmetry. apply Z.mod_unique_pos with 2; [|ring]. change (2 ^ 27) with 134217728 in *. nia. }
  rewrite M in O. change (2 ^ 27) with 134217728 in *. nia.
Qed.

Lemma exec_cons md K s t en : exec_list md K (s :: t) en = bind (exec md K s en) (exec_list md K t).
Proof. reflexivity. Qed.

(** ** One step *)
Lemma loose_checked : c2 "F::mul_assign(&F)" (fun F => [(0, mx F, 0, mx F, 0, mx F)]) (fun _ => 1) (fun _ => XC 0) (fun _ => []) e251_9 = true.
Proof. vm_cast_no_check (eq_refl true). Qed.
Lemma loose_runs F a b : F = e251_9 -> loose F a -> loose F b ->
  exists o, runsd 1 F "F::mul_assign(&F)" [VArr a; VArr b] [] [VArr o; VArr b] /\ loose F o.
Proof.
  intros E A Bb. pose proof loose_checked as K. rewrite <- E in K. unfold c2 in K. apply andb_true_iff in K as [Hh K].
  cbn [forallb] in K. rewrite andb_true_r in K.
  destruct (op2 F _ (in_251 F E) Hh _ _ _ _ _ _ _ _ _ a b K A Bb) as (o & R & Ro & _). eauto.
Qed.
Lemma clear_below F a : F = e251_9 -> loose F a -> clear F (value F a) -> value F a <= 2 ^ 252 - 2 ^ 228.
Proof.
  intros E L (C1 & C2). pose proof (in_251 F E) as H. destruct (rep_value F _ _ a H L) as [V B]. destruct L as (_ & _ & L3).
  rewrite (modulus_251 F E) in *. revert L3 V B C1 C2. rewrite E. generalize (top e251_9 a) as t. intros t.
  change (lowmod e251_9) with (2 ^ 224). change (fl_tb e251_9) with 27. change (fl_C e251_9) with 9.
  generalize (value e251_9 a) as v. intros v L3 V B C1 C2. pose proof (Z.div_mod v (2 ^ 251 - 9)) as D.
  assert (v / (2 ^ 251 - 9) < 2).
  { apply Z.div_lt_upper_bound; [lia|]. destruct (Z_lt_ge_dec v (2 * (2 ^ 251 - 9))) as [|G]; [lia|exfalso].
    assert (M : v mod (2 ^ 251 - 9) = v - 2 * (2 ^ 251 - 9)).
    { symmetry. apply Z.mod_unique_pos with 2; [|ring]. change (2 ^ 27) with 134217728 in *. nia. }
    rewrite M in C1. change (2 ^ 27) with 134217728 in *. nia. }
  nia.
Qed.
Lemma loose_range F a : F = e251_9 -> loose F a -> 0 <= value F a < 2 ^ 252 + 9 * 2 ^ 224.
Proof.
  intros E L. pose proof (in_251 F E) as H. destruct (rep_value F _ _ a H L) as [V B]. destruct L as (_ & _ & L3).
  revert L3 V B. rewrite E. generalize (top e251_9 a) as t. intros t.
  change (lowmod e251_9) with (2 ^ 224). change (fl_tb e251_9) with 27. change (fl_C e251_9) with 9. change (2 ^ 27) with 134217728.
  generalize (value e251_9 a) as v. intros v L3 V B. nia.
Qed.
Lemma runs_det F d f args rets rets' outs outs' : runsd d F f args rets outs -> runs F f args rets' outs' -> (d <= 16)%nat -> rets = rets' /\ outs = outs'.
Proof. intros R R' L. specialize (R Debug 16%nat L). specialize (R' Debug). unfold rust_call in R'. rewrite R in R'. injection R' as -> ->. auto. Qed.
Lemma mul_below F a b : F = e251_9 -> loose F a -> loose F b -> value F a * value F b < 2 ^ 504 ->
  exists o, runsd 1 F "F::mul_assign(&F)" [VArr a; VArr b] [] [VArr o; VArr b] /\ loose F o /\ eqmod F (value F o) (value F a * value F b).
Proof.
  intros E A B L. destruct (loose_runs F a b E A B) as (o & R & Lo). exists o. split; [exact R|]. split; [exact Lo|].
  pose proof (in_251 F E) as H. pose proof (loose_range F a E A) as RA. pose proof (loose_range F b E B) as RB.
  pose proof (loose_wide F a H A) as WA. pose proof (loose_wide F b H B) as WB.
  assert (X : exists o', runs F "F::mul_assign(&F)" [VArr a; VArr b] [] [VArr o'; VArr b] /\ eqmod F (value F o') (value F a * value F b)).
  { revert WA WB L RA RB. rewrite E. intros WA WB L RA RB. destruct (mul_251_exact a b WA WB) as (o' & (R' & _) & _ & I).
    exists o'. split; [exact R'|]. apply I. split; [apply Z.mul_nonneg_nonneg; [apply RA|apply RB]|exact L]. }
  destruct X as (o' & R' & V). destruct (runs_det F 1 _ _ _ _ _ _ R R' ltac:(lia)) as (_ & D). injection D as ->. exact V.
Qed.
Lemma apart_below F a b : F = e251_9 -> loose F a -> loose F b -> apart F (value F a) (value F b) -> value F a * value F b < 2 ^ 504.
Proof.
  intros E A B O. pose proof (in_251 F E) as H. pose proof (loose_range F a E A) as RA. pose proof (loose_range F b E B) as RB.
  assert (K : forall x y, 0 <= x <= 2 ^ 252 - 2 ^ 228 -> 0 <= y < 2 ^ 252 + 9 * 2 ^ 224 -> x * y < 2 ^ 504).
  { intros x y X Y. apply Z.le_lt_trans with ((2 ^ 252 - 2 ^ 228) * (2 ^ 252 + 9 * 2 ^ 224)); [apply Z.mul_le_mono_nonneg; lia|vm_compute; reflexivity]. }
  assert (G : forall c, loose F c -> ordinary F (value F c) -> value F c < 2 ^ 252).
  { intros c C O'. pose proof (ordinary_summand F c E C O') as S. destruct (rep_value F _ _ c H S) as [V L]. destruct S as (_ & _ & S3).
    revert S3 V L. rewrite E. generalize (top e251_9 c) as t. intros t.
    change (lowmod e251_9) with (2 ^ 224). change (fl_tb e251_9) with 27. change (2 ^ 27) with 134217728. generalize (value e251_9 c) as v. intros v L3 V L. nia. }
  destruct O as [O|[O|(OA & OB)]].
  - apply K; [|exact RB]. split; [apply RA|]. now apply clear_below.
  - rewrite Z.mul_comm. apply K; [|exact RA]. split; [apply RB|]. now apply clear_below.
  - pose proof (G a A OA). pose proof (G b B OB). change (2 ^ 504) with (2 ^ 252 * 2 ^ 252). apply Z.mul_lt_mono_nonneg; lia.
Qed.
Lemma mul_251 F a b : F = e251_9 -> loose F a -> loose F b -> apart F (value F a) (value F b) ->
  exists o, runsd 1 F "F::mul_assign(&F)" [VArr a; VArr b] [] [VArr o; VArr b] /\ loose F o /\ eqmod F (value F o) (value F a * value F b).
Proof. intros E A B O. apply mul_below; auto. now apply apart_below. Qed.
Lemma square_251 F a : F = e251_9 -> loose F a ->
  exists o, runsd 1 F "F::square" [VArr a] [] [VArr o] /\ loose F o /\ eqmod F (value F o) (value F a * value F a).
Proof.
  intros E A. destruct (square_ok F a (in_251 F E)) as (o & R & _ & V & L); [left; auto|].
  exists o. split; [exact R|]. split; auto.
Qed.
Lemma ordinary_mod F x y : eqmod F x y -> ordinary F x -> ordinary F y.
Proof. unfold eqmod, ordinary. intros ->. auto. Qed.
Lemma apart_mod F x y x' y' : eqmod F x x' -> eqmod F y y' -> apart F x y -> apart F x' y'.
Proof. unfold eqmod, apart, clear, ordinary. intros -> ->. auto. Qed.

(** ** The loop: square the one, multiply it into the other *)
Fixpoint chain (n : nat) (A S : Z) : Z :=
  match n with O => A | Datatypes.S k => chain k (A * (S * S)) (S * S) end.
Fixpoint chain_ok (F : fld) (n : nat) (A S : Z) : Prop :=
  match n with O => True | Datatypes.S k => apart F A (S * S) /\ chain_ok F k (A * (S * S)) (S * S) end.
Definition chain_body (u : string) : list stmt :=
  [SCall [] "F::square" [AMut "sqval"]; SCall [] "F::mul_assign(&F)" [AMut u; AVal (EVar "sqval")]].

Lemma loop_chain F u : F = e251_9 -> String.eqb u "sqval" = false -> String.eqb u "_" = false ->
  forall n i en a s A S, lookup u en = Some (VArr a) -> lookup "sqval" en = Some (VArr s) -> loose F a -> loose F s ->
  eqmod F (value F a) A -> eqmod F (value F s) S -> chain_ok F n A S ->
  exists en' o, (forall md fuel, (1 <= fuel)%nat -> loop_from md (call md no_base (fl_tbl F) fuel) "_" (chain_body u) n i en = Ok en') /\
    lookup u en' = Some (VArr o) /\ loose F o /\ eqmod F (value F o) (chain n A S).
Proof.
  intros E N1 N2. pose proof (in_251 F E) as H. induction n as [|n IH]; intros i en a s A S La Ls Pa Ps Ea Es C; cbn [chain chain_ok loop_from] in *.
  - exists en, a. split; [intros; reflexivity|]. auto.
  - destruct C as (C1 & C3).
    destruct (square_251 F s E Ps) as (s' & Rs & Ps' & Vs).
    assert (Es' : eqmod F (value F s') (S * S)) by (refine (eq_trans Vs _); now apply eqmod_mul).
    destruct (mul_251 F a s' E Pa Ps') as (a' & Ra & Pa' & Va).
    { eapply apart_mod; [symmetry; exact Ea|symmetry; exact Es'|exact C1]. }
    assert (Ea' : eqmod F (value F a') (A * (S * S))) by (refine (eq_trans Va _); now apply eqmod_mul).
    set (en1 := upd u (VArr a') (upd "sqval" (VArr s') (upd "_" (VInt i) en))).
    destruct (IH (i + 1) en1 a' s' (A * (S * S)) (S * S)) as (en' & o & X & Lo & Po & Vo); auto.
    { unfold en1. apply lookup_upd_eq. }
    { unfold en1. rewrite lookup_upd_ne by (rewrite String.eqb_sym; exact N1). apply lookup_upd_eq. }
    exists en', o. split; [|auto]. intros md fuel Hf.
    assert (Y : exec_list md (call md no_base (fl_tbl F) fuel) (chain_body u) (upd "_" (VInt i) en) = Ok en1).
    { unfold chain_body. rewrite exec_cons. cbn [exec eval_args eval]. unfold get.
      rewrite (lookup_upd_ne "sqval" "_") by reflexivity. rewrite Ls. cbn [bind]. rewrite Rs by exact Hf. cbn [bind write_back bind_rets fst snd].
      rewrite exec_cons. cbn [exec eval_args eval]. unfold get.
      rewrite (lookup_upd_ne u "sqval") by exact N1. rewrite (lookup_upd_ne u "_") by exact N2. rewrite La, lookup_upd_eq. cbn [bind].
      rewrite Ra by exact Hf. reflexivity. }
    rewrite Y. cbn [bind]. apply X. exact Hf.
Qed.

(** ** Powers *)
Lemma chain_powers x : forall n e j, 0 <= j -> 0 <= e -> chain n (x ^ e) (x ^ (2 ^ j)) = x ^ (e + 2 ^ (j + 1 + Z.of_nat n) - 2 ^ (j + 1)).
Proof.
  induction n as [|n IH]; intros e j Hj He; cbn [chain].
  - f_equal. rewrite Nat2Z.inj_0, Z.add_0_r. lia.
  - assert (Q : x ^ (2 ^ j) * x ^ (2 ^ j) = x ^ (2 ^ (j + 1))).
    { rewrite <- Z.pow_add_r by lia. f_equal. rewrite Z.pow_add_r by lia. lia. }
    rewrite Q, <- Z.pow_add_r by (auto; lia). rewrite IH by lia. f_equal. rewrite (Z.pow_add_r 2 (j + 1) 1) by lia.
    replace (j + 1 + 1 + Z.of_nat n) with (j + 1 + Z.of_nat (S n)) by lia. lia.
Qed.
Lemma chain_powers_ok F x E : powers_apart F x E -> forall n e j, 0 <= j -> 0 < e < 2 ^ (j + 1) ->
  E = e + 2 ^ (j + 1 + Z.of_nat n) - 2 ^ (j + 1) -> chain_ok F n (x ^ e) (x ^ (2 ^ j)).
Proof.
  intros O. induction n as [|n IH]; intros e j Hj He EE; cbn [chain_ok]; [exact I|].
  assert (Q : x ^ (2 ^ j) * x ^ (2 ^ j) = x ^ (2 ^ (j + 1))).
  { rewrite <- Z.pow_add_r by lia. f_equal. rewrite Z.pow_add_r by lia. lia. }
  assert (EE' : E = e + (2 ^ Z.of_nat (S n) - 1) * 2 ^ (j + 1)) by (rewrite EE, (Z.pow_add_r 2 (j + 1)) by lia; ring).
  assert (M : E mod 2 ^ (j + 1) = e) by (rewrite EE', Z.mod_add by lia; apply Z.mod_small; lia).
  assert (D : E / 2 ^ (j + 1) = 2 ^ Z.of_nat (S n) - 1) by (rewrite EE', Z.div_add by lia; rewrite Z.div_small by lia; ring).
  assert (T : Z.testbit E (j + 1) = true).
  { rewrite Z.testbit_true by lia. rewrite D. rewrite Nat2Z.inj_succ, Z.pow_succ_r by lia.
    replace (2 * 2 ^ Z.of_nat n - 1) with (1 + (2 ^ Z.of_nat n - 1) * 2) by ring. now rewrite Z.mod_add by lia. }
  pose proof (O (j + 1) ltac:(lia) T ltac:(lia)) as O1. rewrite M in O1. rewrite Q.
  split; [exact O1|]. rewrite <- Z.pow_add_r by lia. apply IH; try lia.
  - rewrite (Z.pow_add_r 2 (j + 1) 1) by lia. lia.
  - rewrite EE, (Z.pow_add_r 2 (j + 1) 1) by lia. replace (j + 1 + 1 + Z.of_nat n) with (j + 1 + Z.of_nat (S n)) by lia. lia.
Qed.

Definition power251 (F : fld) (a : list Z) (e : Z) (o : list Z) : Prop := loose F o /\ eqmod F (value F o) (value F a ^ e).
Lemma power_square F a e o : F = e251_9 -> 0 <= e -> power251 F a e o ->
  exists r, runsd 1 F "F::square" [VArr o] [] [VArr r] /\ power251 F a (2 * e) r.
Proof.
  intros E He (P & V). destruct (square_251 F o E P) as (r & R & Pr & Vr). exists r. split; [exact R|]. split; [exact Pr|].
  refine (eq_trans Vr _). replace (2 * e) with (e + e) by lia. rewrite Z.pow_add_r by auto. apply eqmod_mul; auto. apply in_251, E.
Qed.
Lemma power_mul F a e o e' o' : F = e251_9 -> 0 <= e -> 0 <= e' -> power251 F a e o -> power251 F a e' o' ->
  apart F (value F a ^ e) (value F a ^ e') ->
  exists r, runsd 1 F "F::mul_assign(&F)" [VArr o; VArr o'] [] [VArr r; VArr o'] /\ power251 F a (e + e') r.
Proof.
  intros E He He' (P & V) (P' & V') O. destruct (mul_251 F o o' E P P') as (r & R & Pr & Vr).
  { eapply apart_mod; [symmetry; exact V|symmetry; exact V'|exact O]. }
  exists r. split; [exact R|]. split; [exact Pr|].
  refine (eq_trans Vr _). rewrite Z.pow_add_r by auto. apply eqmod_mul; auto. apply in_251, E.
Qed.
Lemma power_loop F a E u : F = e251_9 -> String.eqb u "sqval" = false -> String.eqb u "_" = false -> powers_apart F (value F a) E ->
  forall n i en e j o s, lookup u en = Some (VArr o) -> lookup "sqval" en = Some (VArr s) -> power251 F a e o -> power251 F a (2 ^ j) s ->
  0 <= j -> 0 < e < 2 ^ (j + 1) -> E = e + 2 ^ (j + 1 + Z.of_nat n) - 2 ^ (j + 1) ->
  exists en' r, (forall md fuel, (1 <= fuel)%nat -> loop_from md (call md no_base (fl_tbl F) fuel) "_" (chain_body u) n i en = Ok en') /\
    lookup u en' = Some (VArr r) /\ power251 F a E r.
Proof.
  intros EF N1 N2 O n i en e j o s Lo Ls (Po & Vo) (Ps & Vs) Hj He EE.
  destruct (loop_chain F u EF N1 N2 n i en o s _ _ Lo Ls Po Ps Vo Vs) as (en' & r & X & Lr & Pr & Vr); [eapply chain_powers_ok; eauto|].
  exists en', r. split; [exact X|]. split; [exact Lr|]. split; [exact Pr|]. rewrite chain_powers in Vr by lia. rewrite EE. exact Vr.
Qed.

Lemma self_power251 F a : loose F a -> power251 F a 1 a.
Proof. intros L. split; [exact L|]. rewrite Z.pow_1_r. reflexivity. Qed.

Lemma invert_251 F a : F = e251_9 -> loose F a -> powers_apart F (value F a) (modulus F - 2) ->
  exists i, runsd 2 F "F::invert" [VArr a] [] [VArr i] /\ power251 F a (modulus F - 2) i.
Proof.
  intros E L O. pose proof (modulus_251 F E) as M.
  destruct (power_square F a 1 a E ltac:(lia) (self_power251 F a L)) as (s2 & R2 & P2).
  destruct (power_square F a (2 * 1) s2 E ltac:(lia) P2) as (s4 & R4 & P4).
  destruct (power_mul F a 1 a (2 * (2 * 1)) s4 E ltac:(lia) ltac:(lia) (self_power251 F a L) P4) as (o & Ro & Po).
  { rewrite M in O. exact (O 2 ltac:(lia) eq_refl eq_refl). }
  destruct (power_square F a (2 * (2 * 1)) s4 E ltac:(lia) P4) as (s8 & R8 & P8).
  destruct (power_loop F a (modulus F - 2) "self" E eq_refl eq_refl O 247 4 [("self", VArr o); ("sqval", VArr s8)] 5 3 o s8) as (en' & r & X & Lr & Pr); auto; try lia.
  exists r. split; [|exact Pr]. apply (call_step _ _ _ Src_e251_9.f_invert); [rewrite E; reflexivity|].
  intros md fuel Hf. unfold Src_e251_9.f_invert, run_func. cbn [f_params f_body f_rets List.length Nat.eqb combine].
  do 5 (rewrite exec_cons; cbn [exec eval_args eval]; unfold get; cbn [lookup String.eqb Ascii.eqb Bool.eqb bind upd];
    first [rewrite R2 by exact Hf|rewrite R4 by exact Hf|rewrite Ro by exact Hf|rewrite R8 by exact Hf|idtac]; cbn [bind write_back bind_rets fst snd upd String.eqb Ascii.eqb Bool.eqb]).
  rewrite exec_cons. rewrite (exec_for _ _ _ _ _ _ _ 4 251) by reflexivity.
  change (Z.to_nat (251 - 4)) with 247%nat. specialize (X md fuel Hf). unfold chain_body in X. rewrite X. cbn [bind exec_list evals gets]. unfold get. rewrite Lr. reflexivity.
Qed.
Lemma legendre_251 F a : F = e251_9 -> loose F a -> powers_apart F (value F a) ((modulus F - 1) / 2) ->
  exists r, runsd 2 F "F::legendre" [VArr a] [VArr r] [VArr a] /\ power251 F a ((modulus F - 1) / 2) r.
Proof.
  intros E L O. assert (M : (modulus F - 1) / 2 = 2 ^ 250 - 5) by (rewrite E; reflexivity). rewrite M in *.
  destruct (power_square F a 1 a E ltac:(lia) (self_power251 F a L)) as (s2 & R2 & P2).
  destruct (power_mul F a 1 a (2 * 1) s2 E ltac:(lia) ltac:(lia) (self_power251 F a L) P2) as (o & Ro & Po).
  { exact (O 1 ltac:(lia) eq_refl eq_refl). }
  destruct (power_square F a (2 * 1) s2 E ltac:(lia) P2) as (s4 & R4 & P4).
  destruct (power_loop F a (2 ^ 250 - 5) "out" E eq_refl eq_refl O 247 3 [("self", VArr a); ("out", VArr o); ("sqval", VArr s4)] 3 2 o s4) as (en' & r & X & Lr & Pr); auto; try lia.
  exists r. split; [|exact Pr]. apply (call_step _ _ _ Src_e251_9.f_legendre); [rewrite E; reflexivity|].
  intros md fuel Hf.
  assert (Y : exec_list md (call md no_base (fl_tbl F) fuel) (f_body Src_e251_9.f_legendre) [("self", VArr a)] = Ok en').
  { unfold Src_e251_9.f_legendre. cbn [f_body].
    do 5 (rewrite exec_cons; cbn [exec eval_args eval]; unfold get; cbn [lookup String.eqb Ascii.eqb Bool.eqb bind upd];
      first [rewrite R2 by exact Hf|rewrite R4 by exact Hf|rewrite Ro by exact Hf|idtac]; cbn [bind write_back bind_rets fst snd upd String.eqb Ascii.eqb Bool.eqb]).
    rewrite exec_cons. rewrite (exec_for _ _ _ _ _ _ _ 3 250) by reflexivity.
    change (Z.to_nat (250 - 3)) with 247%nat. specialize (X md fuel Hf). unfold chain_body in X. rewrite X. reflexivity. }
  unfold run_func. cbn [f_params f_rets Src_e251_9.f_legendre List.length Nat.eqb combine]. change (f_body _) with (f_body Src_e251_9.f_legendre). 
  rewrite Y. cbn [bind evals eval gets]. unfold get. rewrite Lr.
  rewrite (frame_list _ _ "self" (f_body Src_e251_9.f_legendre) eq_refl _ _ Y). reflexivity.
Qed.

(** ** What the powers mean *)
Lemma three_mod_4_251 F : F = e251_9 -> modulus F mod 4 = 3.
Proof. intros ->. reflexivity. Qed.
Lemma big_251 F : F = e251_9 -> 2 < modulus F.
Proof. intros ->. reflexivity. Qed.
Lemma euler_251 F x : F = e251_9 -> ~ eqmod F x 0 ->
  (is_square F x /\ eqmod F (x ^ ((modulus F - 1) / 2)) 1) \/ (~ is_square F x /\ eqmod F (x ^ ((modulus F - 1) / 2)) (-1)).
Proof.
  intros EF X. pose proof (in_251 F EF) as H. pose proof (prime_modulus F H) as P. pose proof (odd_modulus F H) as O. pose proof (big_251 F EF) as P3.
  assert (D : ~ (modulus F | x)) by (intros D; apply X, eqmod_cong, div0; auto).
  rewrite !eqmod_cong, !is_square_mod by assumption.
  destruct (euler_pm (modulus F) x P O D) as [E|E]; [left|right]; split; auto.
  - eexists. apply root_3_mod_4; [now apply three_mod_4_251|lia|exact E].
  - intros S. apply (one_not_minus_one (modulus F) P3). rewrite <- E. symmetry. now apply euler_square.
Qed.
Lemma loose_produced F o : In F all_fields -> loose F o -> produced F o.
Proof. intros H R. pose proof (B_pos F H) as BP. unfold B in BP. eapply rep_weaken; [exact R|lia|lia]. Qed.
Lemma inverted_of F a i : In F all_fields -> runsd 2 F "F::invert" [VArr a] [] [VArr i] -> runsd 3 F "F::inverted" [VArr a] [VArr i] [VArr a].
Proof.
  intros H R. apply (call_step _ _ _ Src_e221_3.f_inverted); [revert H; clear; intros H; by_field H|].
  intros md fuel Hf. unfold Src_e221_3.f_inverted. evm. callee R. reflexivity.
Qed.
Lemma div_of F a b i q : In F all_fields -> runsd 2 F "F::invert" [VArr b] [] [VArr i] ->
  runsd 1 F "F::mul_assign(&F)" [VArr a; VArr i] [] [VArr q; VArr i] -> runsd 4 F "F::div_assign(&F)" [VArr a; VArr b] [] [VArr q; VArr b].
Proof.
  intros H R Rm. pose proof (inverted_of F b i H R) as R'.
  apply (call_step _ _ _ Src_e221_3.f_div_assign_ref); [revert H; clear; intros H; by_field H|].
  intros md fuel Hf. unfold Src_e221_3.f_div_assign_ref. evm. callee R'. callee Rm. reflexivity.
Qed.

Lemma invert_claim_251 F a : F = e251_9 -> loose F a -> powers_apart F (value F a) (modulus F - 2) ->
  exists i, computes_unary F "F::invert" "F::inverted" a i /\ loose F i /\
    (eqmod F (value F a) 0 -> eqmod F (value F i) 0) /\
    (~ eqmod F (value F a) 0 -> eqmod F (value F i * value F a) 1) /\
    (apart F (value F i) (value F a) -> ~ eqmod F (value F a) 0 -> exists o, computes F "mul" i a o /\ loose F o /\ eqmod F (value F o) 1).
Proof.
  intros E L O. pose proof (in_251 F E) as H. pose proof (prime_modulus F H) as P. pose proof (big_251 F E) as B2.
  destruct (invert_251 F a E L O) as (i & R & Li & Vi).
  exists i. split; [split; [apply (runsd_runs 2)|apply (runsd_runs 3)]; [lia|exact R|lia|now apply inverted_of]|]. split; [exact Li|].
  assert (G : ~ eqmod F (value F a) 0 -> eqmod F (value F i * value F a) 1).
  { intros N. rewrite eqmod_cong in * by assumption. rewrite Vi. apply fermat_inverse; auto. intros D. apply N, div0, D. }
  split; [|split; [exact G|]].
  - intros Z0. rewrite eqmod_cong in * by assumption. rewrite Vi. apply zero_pow; auto; [lia|now apply cong0].
  - intros AP N. destruct (mul_251 F i a E Li L AP) as (o & Ro & Lo & Vo).
    exists o. split; [apply (computes_intro F 1); [auto|cbn; tauto|lia|exact Ro]|]. split; [exact Lo|]. exact (eq_trans Vo (G N)).
Qed.
Lemma div_claim_251 F a b : F = e251_9 -> loose F a -> loose F b -> powers_apart F (value F b) (modulus F - 2) ->
  (forall i, eqmod F (i * value F b) 1 -> apart F (value F a) i) -> ~ eqmod F (value F b) 0 ->
  exists q, computes F "div" a b q /\ loose F q /\ eqmod F (value F q * value F b) (value F a) /\
    (apart F (value F q) (value F b) -> exists o, computes F "mul" q b o /\ loose F o /\ eqmod F (value F o) (value F a)).
Proof.
  intros E La Lb O Oa N. pose proof (in_251 F E) as H. pose proof (prime_modulus F H) as P.
  destruct (invert_251 F b E Lb O) as (i & R & Li & Vi).
  assert (G : eqmod F (value F i * value F b) 1).
  { rewrite eqmod_cong in * by assumption. rewrite Vi. apply fermat_inverse; auto. intros D. apply N, div0, D. }
  destruct (mul_251 F a i E La Li (Oa _ G)) as (q & Rq & Lq & Vq).
  exists q. split; [apply (computes_intro F 4); [auto|cbn; tauto|lia|exact (div_of F a b i q H R Rq)]|]. split; [exact Lq|].
  assert (X : eqmod F (value F q * value F b) (value F a)).
  { rewrite eqmod_cong in * by assumption. rewrite Vq, <- Z.mul_assoc, G, Z.mul_1_r. reflexivity. }
  split; [exact X|]. intros AP. destruct (mul_251 F q b E Lq Lb AP) as (o & Ro & Lo & Vo).
  exists o. split; [apply (computes_intro F 1); [auto|cbn; tauto|lia|exact Ro]|]. split; [exact Lo|].
  refine (eq_trans Vo _). exact X.
Qed.
Lemma legendre_claim_251 F a : F = e251_9 -> loose F a -> powers_apart F (value F a) ((modulus F - 1) / 2) ->
  exists r, runs F "F::legendre" [VArr a] [VArr r] [VArr a] /\ loose F r /\
    (eqmod F (value F r) 1 <-> is_square F (value F a) /\ ~ eqmod F (value F a) 0) /\
    (eqmod F (value F r) (-1) <-> ~ is_square F (value F a)) /\
    (eqmod F (value F r) 0 <-> eqmod F (value F a) 0).
Proof.
  intros EF L OP. pose proof (in_251 F EF) as H. pose proof (prime_modulus F H) as P. pose proof (big_251 F EF) as P3.
  destruct (legendre_251 F a EF L OP) as (r & R & Lr & Vr).
  exists r. split; [apply (runsd_runs 2); [lia|exact R]|]. split; [exact Lr|].
  assert (D1 : ~ eqmod F 1 (-1)) by (rewrite eqmod_cong by assumption; now apply one_not_minus_one).
  assert (D2 : ~ eqmod F 1 0).
  { rewrite eqmod_cong by assumption. intros D. apply cong0 in D. apply Z.divide_1_r_nonneg in D; lia. }
  assert (D3 : ~ eqmod F (-1) 0).
  { rewrite eqmod_cong by assumption. intros D. apply cong0, Z.divide_opp_r, Z.divide_1_r_nonneg in D; lia. }
  set (x := value F a) in *.
  destruct (eqmod_dec F x 0) as [Z0|NZ].
  - assert (E : eqmod F (value F r) 0).
    { unfold eqmod in *. rewrite Vr. fold (eqmod F (x ^ ((modulus F - 1) / 2)) 0). rewrite eqmod_cong by assumption. apply zero_pow; auto.
      - apply Z.div_str_pos. lia.
      - apply cong0. now apply eqmod_cong. }
    assert (SQ : is_square F x) by (exists 0; unfold eqmod in *; symmetry; exact Z0).
    assert (~ eqmod F (value F r) 1) by (unfold eqmod in *; congruence).
    assert (~ eqmod F (value F r) (-1)) by (unfold eqmod in *; congruence). tauto.
  - destruct (euler_251 F x EF NZ) as [[Q E]|[Q E]].
    + assert (eqmod F (value F r) 1) by (unfold eqmod in *; congruence).
      assert (~ eqmod F (value F r) 0) by (unfold eqmod in *; congruence).
      assert (~ eqmod F (value F r) (-1)) by (unfold eqmod in *; congruence). tauto.
    + assert (eqmod F (value F r) (-1)) by (unfold eqmod in *; congruence).
      assert (~ eqmod F (value F r) 0) by (unfold eqmod in *; congruence).
      assert (~ eqmod F (value F r) 1) by (unfold eqmod in *; congruence). tauto.
Qed.

(** ** Reduction *)
Definition fold251 (x : Z) : Z :=
  let y := Z.land x (2 ^ 251 - 1) + 9 * Z.shiftr x 251 in Z.land y (2 ^ 251 - 1) + 9 * Z.shiftr y 251.
Lemma fold251_ok x F : F = e251_9 -> eqmod F (fold251 x) x.
Proof.
  intros E. pose proof (in_251 F E) as H.
  assert (G : forall x, eqmod F (Z.land x (2 ^ 251 - 1) + 9 * Z.shiftr x 251) x).
  { clear x. intros x. rewrite eqmod_cong by assumption. replace (2 ^ 251 - 1) with (Z.ones 251) by reflexivity. rewrite Z.land_ones, Z.shiftr_div_pow2 by lia.
    rewrite (modulus_251 F E). exists (- (x / 2 ^ 251)). pose proof (Z.div_mod x (2 ^ 251)). lia. }
  unfold fold251. cbv zeta. refine (eq_trans (G _) (G _)).
Qed.

(** ** A non-trivial argument: an element of order 19 *)
Definition ordinaryb (F : fld) (x : Z) : bool := (x mod modulus F <? 18) || (2 ^ 228 <=? x mod modulus F).
Lemma ordinaryb_ok F x : ordinaryb F x = true -> ordinary F x.
Proof. unfold ordinaryb, ordinary. rewrite orb_true_iff, Z.ltb_lt, Z.leb_le. auto. Qed.
Lemma periodic_ordinary F x n : In F all_fields -> 0 < n -> eqmod F (x ^ n) 1 -> (forall k, 0 <= k < n -> ordinary F (x ^ k)) ->
  forall e, 0 <= e -> ordinary F (x ^ e).
Proof.
  intros H N E O e He. eapply ordinary_mod; [|apply (O (e mod n)); apply Z.mod_pos_bound; lia].
  rewrite (Z.div_mod e n) at 2 by lia. rewrite Z.pow_add_r, Z.pow_mul_r; [|lia|apply Z.div_pos; lia|apply Z.mul_nonneg_nonneg; [lia|apply Z.div_pos; lia]|apply Z.mod_pos_bound; lia].
  replace (x ^ (e mod n)) with (1 ^ (e / n) * x ^ (e mod n)) at 1 by (rewrite Z.pow_1_l by (apply Z.div_pos; lia); ring).
  apply eqmod_mul; auto; [|reflexivity]. apply eqmod_pow; auto; [apply Z.div_pos; lia|]. symmetry. exact E.
Qed.
Definition root19 : Z := 565892397108424249226425679092406096925408325737090416839698456371120205321.
Fixpoint rootb (x : Z) (n : nat) (y : Z) : bool :=
  match n with O => eqmodb e251_9 y 1 | Datatypes.S k => ordinaryb e251_9 y && rootb x k (fold251 (y * x)) end.
Lemma rootb_ok x : forall n y j, 0 <= j -> eqmod e251_9 y (x ^ j) -> rootb x n y = true ->
  eqmod e251_9 (x ^ (j + Z.of_nat n)) 1 /\ forall k, j <= k < j + Z.of_nat n -> ordinary e251_9 (x ^ k).
Proof.
  pose proof (in_251 e251_9 eq_refl) as H. revert H. generalize (fold251_ok) as FO. intros FO.
  induction n as [|n IH]; intros y j Hj E K; cbn [rootb] in K.
  - rewrite Z.add_0_r. split; [|lia]. refine (eq_trans (eq_sym E) _). apply eqmodb_yes, K.
  - apply andb_true_iff in K as [K1 K2].
    assert (E' : eqmod e251_9 (fold251 (y * x)) (x ^ (j + 1))).
    { refine (eq_trans (FO _ _ eq_refl) _). rewrite Z.pow_add_r, Z.pow_1_r by lia. apply eqmod_mul; [exact H|exact E|reflexivity]. }
    destruct (IH _ (j + 1) ltac:(lia) E' K2) as (X & Y). replace (j + Z.of_nat (S n)) with (j + 1 + Z.of_nat n) by lia. split; [exact X|].
    intros k Hk. destruct (Z.eq_dec k j) as [->|N]; [|apply Y; lia]. eapply ordinary_mod; [exact E|]. now apply ordinaryb_ok.
Qed.
Definition root_sq : Z := 2527948784590029257666677054753418664637646358122455266088979705377897431595.
Lemma root_order : rootb root19 19 1 = true. Proof. vm_compute. reflexivity. Qed.
Lemma root_square : eqmodb e251_9 (root_sq * root_sq) root19 = true. Proof. vm_compute. reflexivity. Qed.
Lemma root_tight : repb e251_9 0 (2 ^ fl_tb e251_9 - 1) (to_words e251_9 root19) = true. Proof. vm_compute. reflexivity. Qed.
Lemma root_nz : eqmodb e251_9 root19 0 = false. Proof. vm_compute. reflexivity. Qed.
Lemma root_case e : 0 <= e -> let a := to_words e251_9 root19 in
  tight e251_9 a /\ value e251_9 a = root19 /\ is_square e251_9 root19 /\ ~ eqmod e251_9 root19 0 /\ powers_apart e251_9 root19 e.
Proof.
  intros He a. pose proof root_order as K. pose proof root_square as K2. pose proof root_tight as K3. pose proof root_nz as K4. unfold a. clear a.
  revert K K2 K3 K4. generalize root_sq as q. generalize root19 as x. intros x q K1 K2 K3 K4.
  split; [apply repb_ok; exact K3|]. split; [apply to_words_value, in_251; reflexivity|]. split; [exists q; apply eqmodb_yes, K2|].
  split; [apply eqmodb_no, K4|].
  destruct (rootb_ok x 19 1 0 ltac:(lia) ltac:(rewrite Z.pow_0_r; reflexivity) K1) as (X & Y).
  assert (O : forall e, 0 <= e -> ordinary e251_9 (x ^ e)).
  { apply (periodic_ordinary e251_9 x 19); [apply in_251; reflexivity|lia|exact X|exact Y]. }
  intros k Hk _ _. right. right. split; apply O; [apply Z.mod_pos_bound, Z.pow_pos_nonneg; lia|apply Z.pow_nonneg; lia].
Qed.

(** ** Sums of two decoded values that are inverted wrongly *)
(** the loop on residues; [None] if one of them is not visibly ordinary *)
Definition plainb (y : Z) : bool := (2 ^ 228 <=? y) && (y <? 2 ^ 251 - 9).
Fixpoint chainb (n : nat) (A S : Z) : option Z :=
  match n with
  | O => Some A
  | Datatypes.S k => let S' := fold251 (S * S) in if plainb A && plainb S' then chainb k (fold251 (A * S')) S' else None
  end.
Lemma plainb_ok F y : F = e251_9 -> plainb y = true -> ordinary F y.
Proof. intros E. unfold plainb, ordinary. rewrite andb_true_iff, Z.leb_le, Z.ltb_lt, (modulus_251 F E). intros K. right. rewrite Z.mod_small; lia. Qed.
Lemma chainb_ok F : F = e251_9 -> forall n A S A0 S0 r, eqmod F A A0 -> eqmod F S S0 -> chainb n A S = Some r ->
  chain_ok F n A0 S0 /\ eqmod F r (chain n A0 S0).
Proof.
  intros E. pose proof (in_251 F E) as H. induction n as [|n IH]; intros A S A0 S0 r EA ES K; cbn [chainb chain chain_ok] in *.
  - injection K as <-. split; auto.
  - destruct (plainb A && plainb (fold251 (S * S))) eqn:P; [|discriminate]. apply andb_true_iff in P as [P1 P2].
    assert (E2 : eqmod F (fold251 (S * S)) (S0 * S0)) by (refine (eq_trans (fold251_ok _ F E) _); now apply eqmod_mul).
    assert (E3 : eqmod F (fold251 (A * fold251 (S * S))) (A0 * (S0 * S0))) by (refine (eq_trans (fold251_ok _ F E) _); now apply eqmod_mul).
    destruct (IH _ _ _ _ _ E3 E2 K) as (C & V). split; [|exact V]. split; [|exact C].
    right. right. split; [eapply ordinary_mod; [exact EA|]|eapply ordinary_mod; [exact E2|]]; now apply plainb_ok.
Qed.
Definition wit_u : Z := 3618502788666131106986593281521497120396284211088116489214080828661156416088.
Definition wit_v : Z := 3618502788666131106986593281521497120396284211088116489214080828661156416089.
Definition inv_witness (F : fld) (bu bv u v a s2 s4 w : list Z) (r : Z) : bool :=
  runsb F "F::unpacked" [VArr bu] [VArr u] [VArr bu] && runsb F "F::unpacked" [VArr bv] [VArr v] [VArr bv] &&
  computesb F "add" u v a && repb F 0 (2 * 2 ^ 27 - 1) a &&
  runsb F "F::square" [VArr a] [] [VArr s2] && runsb F "F::square" [VArr s2] [] [VArr s4] &&
  runsb F "F::mul_assign(&F)" [VArr a; VArr s4] [] [VArr w; VArr s4] && repb F 0 (2 * 2 ^ 27 + 8) w &&
  match chainb 247 (value F w) (fold251 (value F s4 * value F s4)) with Some y => y =? r | None => false end &&
  plainb r && negb (eqmodb F (r * value F a) 1) && negb (eqmodb F (value F a) 0).
Local Opaque runsb computesb repb eqmodb chainb plainb fold251 value rust_call.
Lemma inv_witness_ok F bu bv u v a s2 s4 w r : F = e251_9 -> inv_witness F bu bv u v a s2 s4 w r = true ->
  runs F "F::unpacked" [VArr bu] [VArr u] [VArr bu] /\ runs F "F::unpacked" [VArr bv] [VArr v] [VArr bv] /\ computes F "add" u v a /\ summand F a /\
  ~ eqmod F (value F a) 0 /\
  exists i, runsd 2 F "F::invert" [VArr a] [] [VArr i] /\ loose F i /\ ordinary F (value F i) /\ ~ eqmod F (value F i * value F a) 1.
Proof.
  intros E K. unfold inv_witness in K. parts K. pose proof (in_251 F E) as H.
  repeat match goal with X : runsb _ _ _ _ _ = true |- _ => apply runsb_ok in X end.
  repeat match goal with X : repb _ _ _ _ = true |- _ => apply repb_ok in X end.
  repeat match goal with X : negb _ = true |- _ => apply negb_true_iff in X end.
  repeat match goal with X : eqmodb _ _ _ = false |- _ => apply eqmodb_no in X end.
  split; [assumption|]. split; [assumption|]. split; [apply computesb_ok; assumption|].
  assert (SA : summand F a) by (unfold summand; rewrite E at 2; assumption). split; [exact SA|]. split; [assumption|].
  assert (LA : loose F a) by (eapply rep_weaken; [exact SA|lia|rewrite E; cbn [fl_C fl_tb e251_9]; lia]).
  assert (LW : loose F w) by (unfold loose; rewrite E at 2 3; assumption).
  destruct (square_251 F a E LA) as (t2 & R2 & L2 & _).
  match goal with X : runs F "F::square" [VArr a] _ _ |- _ => destruct (runs_det F 1 _ _ _ _ _ _ R2 X ltac:(lia)) as (_ & D2) end. injection D2 as ->.
  destruct (square_251 F s2 E L2) as (t4 & R4 & L4 & _).
  match goal with X : runs F "F::square" [VArr s2] _ _ |- _ => destruct (runs_det F 1 _ _ _ _ _ _ R4 X ltac:(lia)) as (_ & D4) end. injection D4 as ->.
  destruct (mul_runs F a s4 H (loose_wide F a H LA) (loose_wide F s4 H L4)) as (t & Ro & _).
  match goal with X : runs F "F::mul_assign(&F)" [VArr a; VArr s4] _ _ |- _ => destruct (runs_det F 1 _ _ _ _ _ _ Ro X ltac:(lia)) as (_ & Do) end. injection Do as ->.
  destruct (square_251 F s4 E L4) as (s8 & R8 & L8 & V8).
  match goal with X : match chainb _ _ _ with _ => _ end = true |- _ => destruct (chainb _ _ _) as [y|] eqn:C in X; [|discriminate X]; apply Z.eqb_eq in X; subst y end.
  assert (E8 : eqmod F (fold251 (value F s4 * value F s4)) (value F s8)) by (refine (eq_trans (fold251_ok _ F E) _); symmetry; exact V8).
  destruct (chainb_ok F E _ _ _ (value F w) (value F s8) r eq_refl E8 C) as (CO & CV).
  destruct (loop_chain F "self" E eq_refl eq_refl 247 4 [("self", VArr w); ("sqval", VArr s8)] w s8 _ _ eq_refl eq_refl LW L8 eq_refl eq_refl CO) as (en' & i & X & Li & Pi & Vi).
  exists i. split; [|split; [exact Pi|split]].
  - apply (call_step _ _ _ Src_e251_9.f_invert); [rewrite E; reflexivity|].
    intros md fuel Hf. unfold Src_e251_9.f_invert, run_func. cbn [f_params f_body f_rets List.length Nat.eqb combine].
    do 5 (rewrite exec_cons; cbn [exec eval_args eval]; unfold get; cbn [lookup String.eqb Ascii.eqb Bool.eqb bind upd];
      first [rewrite R2 by exact Hf|rewrite R4 by exact Hf|rewrite Ro by exact Hf|rewrite R8 by exact Hf|idtac]; cbn [bind write_back bind_rets fst snd upd String.eqb Ascii.eqb Bool.eqb]).
    rewrite exec_cons. rewrite (exec_for _ _ _ _ _ _ _ 4 251) by reflexivity.
    change (Z.to_nat (251 - 4)) with 247%nat. specialize (X md fuel Hf). unfold chain_body in X. rewrite X. cbn [bind exec_list evals gets]. unfold get. rewrite Li. reflexivity.
  - eapply ordinary_mod; [|apply (plainb_ok F r E); assumption]. refine (eq_trans CV _). symmetry. exact Vi.
  - intros N. match goal with X : ~ eqmod F (r * _) 1 |- _ => apply X end. refine (eq_trans _ N). apply eqmod_mul; auto; [|reflexivity].
    refine (eq_trans CV _). symmetry. exact Vi.
Qed.
Definition wu : list Z := [48896282095127128; 53882597756223562; 72057594037924391; 72057594037927935; 134217727].
Definition wv : list Z := [48896282095127129; 53882597756223562; 72057594037924391; 72057594037927935; 134217727].
Definition wa : list Z := [25734970152326321; 35707601474519189; 72057594037920847; 72057594037927935; 268435455].
Definition ws2 : list Z := [44418151153601664; 65121980528103505; 40057154495605846; 31976639437524002; 184464623].
Definition ws4 : list Z := [28455694304668901; 66352352118109486; 30896182244354544; 11697524081980397; 268435459].
Definition ww : list Z := [18486550693503576; 46093443022929744; 37116511423772365; 64059190316759072; 88745419].
Definition wr : Z := 511992451444374829973129171868605815354629759572456033967803850318497693215.
Lemma inv_checked : inv_witness e251_9 (le_bytes 32 wit_u) (le_bytes 32 wit_v) wu wv wa ws2 ws4 ww wr = true.
Proof. vm_cast_no_check (eq_refl true). Qed.

(** u and v are decoded, a = u + v, and the inverse of a is wrong *)
Lemma invert_wrong F : F = e251_9 -> exists bu bv u v a i o,
  runs F "F::unpacked" [VArr bu] [VArr u] [VArr bu] /\ runs F "F::unpacked" [VArr bv] [VArr v] [VArr bv] /\ computes F "add" u v a /\
  computes_unary F "F::invert" "F::inverted" a i /\ computes F "mul" i a o /\ eqmod F (value F o) (value F i * value F a) /\
  ~ eqmod F (value F a) 0 /\ ~ eqmod F (value F o) 1.
Proof.
  intros E. pose proof inv_checked as K. rewrite <- E in K.
  destruct (inv_witness_ok F _ _ _ _ _ _ _ _ _ E K) as (U & V & A & S & N & i & R & L & O & W). pose proof (in_251 F E) as H.
  pose proof (ordinary_summand F i E L O) as Si.
  destruct (mul_ok F i wa H (safe_sums _ _ _ Si S)) as (o & Ro & _ & Vo & _).
  do 7 eexists. split; [exact U|]. split; [exact V|]. split; [exact A|]. split; [split; [apply (runsd_runs 2)|apply (runsd_runs 3)]; [lia|exact R|lia|now apply inverted_of]|].
  split; [apply (computes_intro F 1); [auto|cbn; tauto|lia|exact Ro]|]. split; [exact Vo|]. split; [exact N|].
  intros X. apply W. refine (eq_trans (eq_sym Vo) X).
Qed.
(** ... and so is 1 / a *)
Lemma div_wrong F : F = e251_9 -> exists bu bv u v a one q o,
  runs F "F::unpacked" [VArr bu] [VArr u] [VArr bu] /\ runs F "F::unpacked" [VArr bv] [VArr v] [VArr bv] /\ computes F "add" u v a /\
  runs F "F::one" [] [VArr one] [] /\ computes F "div" one a q /\ computes F "mul" q a o /\ eqmod F (value F o) (value F q * value F a) /\
  ~ eqmod F (value F a) 0 /\ ~ eqmod F (value F o) (value F one).
Proof.
  intros E. pose proof inv_checked as K. rewrite <- E in K.
  destruct (inv_witness_ok F _ _ _ _ _ _ _ _ _ E K) as (U & V & A & S & N & i & R & L & O & W). pose proof (in_251 F E) as H.
  assert (T1 : near F (to_words F 1)).
  { assert (T : tight F (to_words F 1)) by (apply to_words_tight; [exact H|rewrite E; split; [discriminate|reflexivity]]).
    eapply rep_weaken; [exact T|lia|lia]. }
  assert (G : runs F "F::one" [] [VArr (to_words F 1)] []) by (rewrite E; apply runsb_ok; vm_compute; reflexivity).
  destruct (mul_ok F (to_words F 1) i H (safe_right _ _ _ T1 L)) as (q & Rq & _ & Vq & Lq).
  rewrite to_words_value, Z.mul_1_l in Vq by exact H.
  assert (L1 : loose F (to_words F 1)) by (eapply rep_weaken; [exact T1|lia|rewrite E; cbn [fl_C fl_tb e251_9]; lia]).
  assert (Oq : ordinary F (value F q)) by (eapply ordinary_mod; [symmetry; exact Vq|exact O]).
  pose proof (ordinary_summand F q E (Lq L1 L) Oq) as Sq.
  destruct (mul_ok F q wa H (safe_sums _ _ _ Sq S)) as (o & Ro & _ & Vo & _).
  do 8 eexists. split; [exact U|]. split; [exact V|]. split; [exact A|]. split; [exact G|].
  split; [apply (computes_intro F 4); [auto|cbn; tauto|lia|exact (div_of F _ _ i q H R Rq)]|].
  split; [apply (computes_intro F 1); [auto|cbn; tauto|lia|exact Ro]|]. split; [exact Vo|]. split; [exact N|].
  rewrite to_words_value by exact H. intros X. apply W. refine (eq_trans _ X). refine (eq_trans _ (eq_sym Vo)). apply eqmod_mul; auto; [|reflexivity]. symmetry. exact Vq.
Qed.

(** ** Cases for the property files *)
Lemma case_251 e : 0 <= e -> exists a, loose e251_9 a /\ 2 ^ 248 < value e251_9 a /\ is_square e251_9 (value e251_9 a) /\ ~ eqmod e251_9 (value e251_9 a) 0 /\ powers_apart e251_9 (value e251_9 a) e.
Proof.
  intros He. destruct (root_case e He) as (T & V & S & N & O). exists (to_words e251_9 root19). rewrite V. split; [|split; [|auto]].
  - apply tight_loose; [apply in_251; reflexivity|exact T].
  - reflexivity.
Qed.
Lemma case_div_251 : exists a b, loose e251_9 a /\ loose e251_9 b /\ powers_apart e251_9 (value e251_9 b) (modulus e251_9 - 2) /\
  (forall i, eqmod e251_9 (i * value e251_9 b) 1 -> apart e251_9 (value e251_9 a) i) /\ ~ eqmod e251_9 (value e251_9 b) 0 /\ ~ eqmod e251_9 (value e251_9 a) (value e251_9 b).
Proof.
  destruct (root_case (modulus e251_9 - 2) ltac:(discriminate)) as (T & V & _ & N & O).
  pose proof (in_251 e251_9 eq_refl) as H. pose proof root_order as K1.
  exists (to_words e251_9 3), (to_words e251_9 root19). rewrite V, to_words_value by exact H.
  assert (T1 : tight e251_9 (to_words e251_9 3)) by (apply to_words_tight; [exact H|split; [discriminate|reflexivity]]).
  split; [apply tight_loose; auto|]. split; [apply tight_loose; auto|]. split; [exact O|].
  split; [|split; [exact N|vm_compute; discriminate]].
  intros i Ei. right. right. split; [apply ordinaryb_ok; vm_compute; reflexivity|]. revert Ei K1. generalize root19 as x. intros x Ei K1.
  destruct (rootb_ok x 19 1 0 ltac:(lia) ltac:(rewrite Z.pow_0_r; reflexivity) K1) as (X & Y).
  eapply ordinary_mod; [|apply (Y 18); lia].
  assert (Z1 : eqmod e251_9 (i * x ^ 19) (i * 1)) by (apply eqmod_mul; [exact H|reflexivity|exact X]). rewrite Z.mul_1_r in Z1.
  refine (eq_trans _ Z1). change 19 with (Z.succ 18). rewrite Z.pow_succ_r, Z.mul_assoc by lia.
  symmetry. rewrite <- (Z.mul_1_l (x ^ 18)) at 2. apply eqmod_mul; [exact H|exact Ei|reflexivity].
Qed.
