(** The arithmetic claims in their final form. *)
From Coq Require Import ZArith List String Lia Bool.
From Verif Require Import Lang Poly Kernel Fields Kfacts Ops Words Codec Normalize Methods Surface Forms Power.
From Verif Require Src_e221_3.
Import ListNotations.
Local Open Scope string_scope.
Local Open Scope Z_scope.

Definition b_clone (base p : string) : func :=
  mkfunc ["self"; p] [SLet "out" (EVar "self"); SCall [] base [AMut "out"; AVal (EVar p)]] [EVar "out"].
Lemma clone_runs F d f base p a b o b' : lookup f (fl_tbl F) = Some (b_clone base p) -> In p ["a"; "rhs"; "b"] ->
  runsd d F base [a; b] [] [o; b'] -> runsd (S d) F f [a; b] [o] [a; b].
Proof.
  intros L P R. apply (call_step _ _ _ _ _ _ _ L). intros md fuel Hf. unfold b_clone.
  destruct P as [<-|[<-|[<-|[]]]]; evm; callee R; reflexivity.
Qed.
Lemma computes_intro F d op a b o : In F all_fields -> In op ["add"; "sub"; "mul"; "div"] -> (d <= 10)%nat ->
  runsd d F ("F::" ++ op ++ "_assign(&F)") [VArr a; VArr b] [] [VArr o; VArr b] -> computes F op a b o.
Proof.
  intros H Ho L R. split; [eapply runsd_runs; [|exact R]; lia|].
  eapply (runsd_runs (S d)); [lia|]. eapply (clone_runs F d _ _ "a"); [|cbn; tauto|exact R].
  destruct Ho as [<-|[<-|[<-|[<-|[]]]]]; cbn [append]; by_field H.
Qed.
Lemma computes_small_intro F d op a b o : In F all_fields -> In op ["add"; "sub"; "mul"] -> (d <= 10)%nat ->
  runsd d F ("F::small_" ++ op ++ "_assign") [VArr a; VInt b] [] [VArr o; VInt b] -> computes_small F op a b o.
Proof.
  intros H Ho L R. split; [eapply runsd_runs; [|exact R]; lia|].
  eapply (runsd_runs (S d)); [lia|].
  destruct Ho as [<-|[<-|[<-|[]]]]; (eapply (clone_runs F d); [cbn [append]; by_field H|cbn; tauto|exact R]).
Qed.
Lemma computes_square_intro F a o : In F all_fields -> runsd 1 F "F::square" [VArr a] [] [VArr o] ->
  computes_unary F "F::square" "F::squared" a o.
Proof.
  intros H R. split; [eapply runsd_runs; [|exact R]; lia|].
  eapply (runsd_runs 2); [lia|]. apply squared_runs; auto.
Qed.

Lemma eqmod_sum F a b c d : eqmod F a b -> eqmod F c d -> eqmod F (a + c) (b + d).
Proof. unfold eqmod. intros E1 E2. rewrite Zplus_mod, E1, E2, <- Zplus_mod. reflexivity. Qed.
Lemma eqmod_diff F a b c d : eqmod F a b -> eqmod F c d -> eqmod F (a - c) (b - d).
Proof. unfold eqmod. intros E1 E2. rewrite Zminus_mod, E1, E2, <- Zminus_mod. reflexivity. Qed.

Lemma add_claim F a b : In F all_fields -> any_rep F a -> any_rep F b ->
  exists o, computes F "add" a b o /\ eqmod F (value F o) (value F a + value F b) /\
    rep F (-1) (2 * 2 ^ fl_tb F) o.
Proof.
  intros H A Bb. destruct (add_ok F a b H A Bb) as (o & R & Ro & V & _). exists o.
  split; [apply (computes_intro F 1); [auto|cbn; tauto|lia|exact R]|]. split; [|exact Ro].
  rewrite V. apply eqmod_sum; apply folded_eqmod.
Qed.
Lemma mul_claim F a b : In F all_fields -> mul_safe F a b ->
  exists o, computes F "mul" a b o /\ eqmod F (value F o) (value F a * value F b) /\
    rep F (-1) (2 * 2 ^ fl_tb F + (fl_C F - 1)) o /\ (loose F a -> loose F b -> loose F o).
Proof.
  intros H S. destruct (mul_ok F a b H S) as (o & R & Ro & V & L). exists o.
  split; [apply (computes_intro F 1); [auto|cbn; tauto|lia|exact R]|]. split; [exact V|]. split; [exact Ro|exact L].
Qed.
Lemma square_claim F a : In F all_fields -> square_safe F a ->
  exists o, computes_unary F "F::square" "F::squared" a o /\ eqmod F (value F o) (value F a * value F a) /\
    rep F (-1) (2 * 2 ^ fl_tb F + (fl_C F - 1)) o /\ (loose F a -> loose F o).
Proof.
  intros H S. destruct (square_ok F a H S) as (o & R & Ro & V & L). exists o.
  split; [apply computes_square_intro; auto|]. split; [exact V|]. split; [exact Ro|exact L].
Qed.
(** squaring is multiplication by itself, even word for word up to residue *)
Lemma sub_claim F a b : In F all_fields -> any_rep F a -> any_rep F b ->
  exists o, computes F "sub" a b o /\
    (eqmod F (value F o) (value F a - value F b) <-> (modulus F | 2 * fl_C F * carry F b)) /\
    (tight F b -> eqmod F (value F o) (value F a - value F b)) /\
    rep F (- 2 ^ fl_tb F - 1) (2 ^ fl_tb F) o.
Proof.
  intros H A Bb. destruct (sub_ok F a b H A Bb) as (o & R & Ro & V). exists o.
  pose proof (modulus_pos F H) as MP.
  assert (E : eqmod F (folded F a - folded F b) (value F a - value F b)) by (apply eqmod_diff; apply folded_eqmod).
  assert (X : eqmod F (value F o) (value F a - value F b) <-> (modulus F | 2 * fl_C F * carry F b)).
  { split.
    - intros Q. rewrite V in Q. unfold eqmod in Q, E. rewrite <- E in Q.
      apply Z.mod_divide; [lia|].
      replace (2 * fl_C F * carry F b) with ((folded F a - folded F b + 2 * fl_C F * carry F b) - (folded F a - folded F b)) by ring.
      rewrite Zminus_mod, Q, Z.sub_diag. apply Z.mod_0_l. lia.
    - intros [k Q]. rewrite V, Q. unfold eqmod. rewrite Z.mod_add by lia. exact E. }
  split; [apply (computes_intro F 1); [auto|cbn; tauto|lia|exact R]|]. split; [exact X|]. split; [|exact Ro].
  intros T. apply X. rewrite (tight_carry F b H T), Z.mul_0_r. apply Z.divide_0_r.
Qed.
Lemma neg_claim F a : In F all_fields -> any_rep F a ->
  exists o, runs F "F::neg" [VArr a] [VArr o] [VArr a] /\ eqmod F (value F o) (value F a) /\ rep F (-1) (2 * 2 ^ fl_tb F) o.
Proof.
  intros H A. destruct (neg_runs F a H A) as (o & R & Ro & V & _). exists o.
  split; [eapply runsd_runs; [|exact R]; lia|]. split; [|exact Ro].
  rewrite V. unfold eqmod. replace (folded F a + modulus F) with (folded F a + 1 * modulus F) by ring.
  pose proof (modulus_pos F H). rewrite Z.mod_add by lia. apply folded_eqmod.
Qed.
Lemma small_claim F a k : In F all_fields -> any_rep F a -> is_i32 k ->
  (exists o, computes_small F "add" a k o /\ eqmod F (value F o) (value F a + k) /\ rep F (-1) (2 ^ fl_tb F) o) /\
  (exists o, computes_small F "sub" a k o /\ eqmod F (value F o) (value F a - k) /\ rep F (-1) (2 ^ fl_tb F) o).
Proof.
  intros H A K. split.
  - destruct (small_add_ok F a k H A K) as (o & R & Ro & V & _). exists o.
    split; [apply (computes_small_intro F 1); [auto|cbn; tauto|lia|exact R]|]. split; [|exact Ro].
    rewrite V. apply eqmod_sum; [apply folded_eqmod|reflexivity].
  - destruct (small_sub_ok F a k H A K) as (o & R & Ro & V & _). exists o.
    split; [apply (computes_small_intro F 1); [auto|cbn; tauto|lia|exact R]|]. split; [|exact Ro].
    rewrite V. apply eqmod_diff; [apply folded_eqmod|reflexivity].
Qed.
Lemma small_mul_claim F a k : In F all_fields -> F <> e521_1 -> tight F a -> smallmul_ok F k ->
  exists o, computes_small F "mul" a k o /\ value F o = value F a * k /\ any_rep F o.
Proof.
  intros H N T K. destruct (small_mul_ok F a k H N T K) as (o & R & Ro & V & _). exists o.
  split; [apply (computes_small_intro F 1); [auto|cbn; tauto|lia|exact R]|]. split; [exact V|exact Ro].
Qed.

(** squaring handles everything the library produces *)
Lemma square_produced F a : In F all_fields -> produced F a ->
  exists o, computes_unary F "F::square" "F::squared" a o /\ eqmod F (value F o) (value F a * value F a) /\ produced F o.
Proof.
  intros H P. pose proof (B_pos F H) as BP. unfold B in BP.
  assert (S : square_safe F a).
  { destruct P as (L & W & T). destruct (Z_le_gt_dec 0 (top F a)); [left|right; left]; (split; [exact L|split; [exact W|lia]]). }
  destruct (square_claim F a H S) as (o & R & V & Ro & _). exists o. split; [exact R|]. split; [exact V|].
  eapply rep_weaken; [exact Ro|lia|lia].
Qed.
Lemma produced_wide F a : In F all_fields -> produced F a -> wide F a.
Proof.
  intros H P. pose proof (B_pos F H) as BP. pose proof (W_big F H). unfold B in BP.
  destruct (layout_facts F H) as (_ & _ & _ & C & LB & _). apply (wide_intro F _ _ _ P); lia.
Qed.
Lemma mul_produced F a b : In F all_fields -> F <> e222_117 -> F <> e251_9 -> produced F a -> produced F b ->
  exists o, computes F "mul" a b o /\ eqmod F (value F o) (value F a * value F b) /\ produced F o.
Proof.
  intros H N1 N2 A Bb. pose proof (B_pos F H) as BP. unfold B in BP.
  destruct (mul_claim F a b H) as (o & R & V & Ro & _). { apply safe_wide; auto using produced_wide. }
  exists o. split; [exact R|]. split; [exact V|]. eapply rep_weaken; [exact Ro|lia|lia].
Qed.
Lemma neg_zero F a : In F all_fields -> any_rep F a ->
  exists o, runs F "F::neg" [VArr a] [VArr o] [VArr a] /\ rep F (-1) (2 * 2 ^ fl_tb F) o /\
    (eqmod F (value F a) 0 -> eqmod F (value F o + value F a) 0).
Proof.
  intros H A. destruct (neg_claim F a H A) as (o & R & E & Ro). exists o. split; [exact R|]. split; [exact Ro|].
  intros Z. change 0 with (0 + 0). apply eqmod_sum; [unfold eqmod in *; congruence|exact Z].
Qed.
(** the fields in which every i32 multiplier is in range *)
Definition narrow_fields : list fld := [e251_9; e255_19; e414_17; e511_187].
Lemma small_mul_narrow F a k : In F narrow_fields -> tight F a -> is_i32 k ->
  exists o, computes_small F "mul" a k o /\ value F o = value F a * k /\ any_rep F o.
Proof.
  intros H T K. assert (X : In F all_fields /\ F <> e521_1 /\ 2 ^ 32 <= 2 ^ (63 - fl_tb F)).
  { clear -H. repeat (destruct H as [<-|H]; [split; [cbn; tauto|split; [intros E; apply (f_equal fl_C) in E; discriminate E|vm_compute; discriminate]]|]). destruct H. }
  destruct X as (X1 & X2 & X3). apply small_mul_claim; auto. split; auto. unfold is_i32 in K. change (2 ^ 32) with 4294967296 in X3.
  change (2 ^ 31) with 2147483648 in K. lia.
Qed.

(** ** Deciding representations of literals *)
Definition repb (F : fld) (lo hi : Z) (l : list Z) : bool :=
  Nat.eqb (List.length l) (fl_n F) && forallb (fun x => (0 <=? x) && (x <? 2 ^ fl_w F)) (firstn (fl_n F - 1) l) &&
  (lo <=? top F l) && (top F l <=? hi).
Lemma repb_ok F lo hi l : repb F lo hi l = true -> rep F lo hi l.
Proof.
  unfold repb. rewrite !andb_true_iff. intros (((L & A) & T1) & T2). apply Nat.eqb_eq in L.
  split; [exact L|]. split; [|lia]. intros i Hi. rewrite forallb_forall in A.
  assert (In (nth i l 0) (firstn (fl_n F - 1) l)) as I.
  { rewrite <- (firstn_skipn (fl_n F - 1) l) at 1. rewrite app_nth1; [|rewrite firstn_length; lia].
    apply nth_In. rewrite firstn_length. lia. }
  apply A in I. lia.
Qed.
Ltac show_rep := apply repb_ok; vm_compute; reflexivity.
Ltac show_runs := intros [|]; vm_compute; reflexivity.
