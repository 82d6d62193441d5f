(** What the ladder of src/curve/edwards.rs lines 483-581 computes, as group
    elements: started from the neutral element it gives the multiple for the
    complemented scalar; zero() differs from the neutral element in T only, and
    that is seen only by points with x*y <> 0. *)
From Coq Require Import ZArith Znumtheory List String Lia Bool.
From Verif Require Import Lang NumTheory Zp EdwardsSpec EdwardsAlg GroupLaw GroupSpec Lawful.
Import ListNotations.
Local Open Scope Z_scope.

Section Ladder.
Variable p : Z.
Hypothesis PR : prime p.
Variable d : Z.
Hypothesis NS : non_square p d.
Let eqc := eqc p PR.
Let p0 := prime_nz p PR.

Definition qstands (Q : quad) (A : affine) : Prop := let '(X, Y, Z, T) := Q in denotes p X Y Z T A.

Lemma quad_sum_stands Q R A B C : qstands Q A -> qstands R B -> edwards_sum p d A B C -> qstands (quad_sum p d Q R) C.
Proof.
  destruct Q as (((X1, Y1), Z1), T1), R as (((X2, Y2), Z2), T2). unfold qstands, quad_sum. cbv zeta. intros H K S.
  apply (add_formulas p PR d X1 Y1 Z1 T1 X2 Y2 Z2 T2 _ _ _ _ A B C H K S). cbv zeta. repeat split; apply cong_mod; exact p0.
Qed.
Lemma quad_double_stands Q A C : qstands Q A -> on_curve p d A -> edwards_sum p d A A C -> qstands (quad_double p Q) C.
Proof.
  destruct Q as (((X1, Y1), Z1), T1). unfold qstands, quad_double. cbv zeta. intros (H1 & H2 & H3 & _) OC S.
  apply (double_formulas p PR d X1 Y1 Z1 _ _ _ _ A C (conj H1 (conj H2 H3)) OC S). cbv zeta.
  rewrite (Z.mul_comm (Z1 * Z1) 2). repeat split; apply cong_mod; exact p0.
Qed.

(** the scalar whose multiple comes out: every bit turned over *)
Fixpoint turned (bit : Z -> bool) (k : nat) (m : nat) : nat :=
  match k with
  | O => m
  | S j => if bit (Z.of_nat j) then turned bit j (2 * m) else turned bit j (2 * m + 1)
  end.

Lemma mult_same A n R S : multiple p d A n R -> same_point p R S -> multiple p d A n S.
Proof. intros H E. exact (mult_ext p PR d A n R S E H). Qed.

Lemma quad_ladder_stands A bit : on_curve p d A -> forall k m Q0 Q1 A0 A1, qstands Q0 A0 -> qstands Q1 A1 ->
  multiple p d A m A0 -> multiple p d A (m + 1) A1 ->
  exists C, multiple p d A (turned bit k m) C /\ qstands (quad_ladder p d bit k Q0 Q1) C.
Proof.
  intros CA. induction k as [|k IH]; intros m Q0 Q1 A0 A1 S0 S1 M0 M1; cbn [turned quad_ladder]; [eauto|].
  assert (C0 := mult_on p PR d A CA _ _ M0). assert (C1 := mult_on p PR d A CA _ _ M1).
  destruct (sum_ex p PR d NS A0 A1 C0 C1) as (B & SB & CB). assert (MB := mult_add p PR d NS A CA _ _ _ _ _ M0 M1 SB).
  assert (QB := quad_sum_stands _ _ _ _ _ S0 S1 SB).
  destruct (bit (Z.of_nat k)).
  - destruct (sum_ex p PR d NS A0 A0 C0 C0) as (D & SD & CD). assert (MD := mult_add p PR d NS A CA _ _ _ _ _ M0 M0 SD).
    apply (IH (2 * m)%nat _ _ D B); auto; [now apply (quad_double_stands Q0 A0)| |].
    + replace (2 * m)%nat with (m + m)%nat by lia. exact MD.
    + replace (2 * m + 1)%nat with (m + (m + 1))%nat by lia. exact MB.
  - destruct (sum_ex p PR d NS A1 A1 C1 C1) as (D & SD & CD). assert (MD := mult_add p PR d NS A CA _ _ _ _ _ M1 M1 SD).
    apply (IH (2 * m + 1)%nat _ _ B D); auto; [now apply (quad_double_stands Q1 A1)| |].
    + replace (2 * m + 1)%nat with (m + (m + 1))%nat by lia. exact MB.
    + replace (2 * m + 1 + 1)%nat with (m + 1 + (m + 1))%nat by lia. exact MD.
Qed.

Lemma turned_eq v k : forall m, Z.of_nat (turned (Z.testbit v) k m) = Z.of_nat m * 2 ^ Z.of_nat k + (2 ^ Z.of_nat k - 1 - v mod 2 ^ Z.of_nat k).
Proof.
  induction k as [|k IH]; intros m.
  - cbn [turned]. change (2 ^ Z.of_nat 0) with 1. rewrite Z.mod_1_r. lia.
  - cbn [turned]. rewrite Nat2Z.inj_succ, Z.pow_succ_r by lia. assert (0 < 2 ^ Z.of_nat k) by (apply Z.pow_pos_nonneg; lia).
    assert (E : v mod (2 * 2 ^ Z.of_nat k) = v mod 2 ^ Z.of_nat k + 2 ^ Z.of_nat k * Z.b2z (Z.testbit v (Z.of_nat k))).
    { rewrite (Z.mul_comm 2), Z.rem_mul_r by lia. rewrite <- (Z.testbit_spec' v (Z.of_nat k)) by lia. reflexivity. }
    rewrite E. destruct (Z.testbit v (Z.of_nat k)); cbn [Z.b2z]; rewrite IH, ?Nat2Z.inj_add, Nat2Z.inj_mul; change (Z.of_nat 2) with 2; change (Z.of_nat 1) with 1; ring.
Qed.

(** zero() has T = 1; with T = 0 in the other point it makes no difference *)
Lemma ladder_flat bit k X Y Z z : (0 < k)%nat ->
  quad_ladder p d bit k (0, 1, 1, z) (X, Y, Z, 0) = quad_ladder p d bit k (0, 1, 1, 0) (X, Y, Z, 0).
Proof. destruct k as [|k]; [lia|]. intros _. cbn [quad_ladder]. unfold quad_sum, quad_double. now rewrite !Z.mul_0_r. Qed.

Lemma qneutral : qstands (0, 1, 1, 0) neutral.
Proof.
  unfold qstands, denotes, neutral. cbn [fst snd]. rewrite !eqc. split; [apply zp_one; exact PR|]. repeat split; apply cong_eq; ring.
Qed.
Lemma flat_T Q A : qstands Q A -> eqp p (fst A * snd A) 0 -> eqp p (snd Q) 0.
Proof.
  destruct Q as (((X, Y), Z), T), A as (x, y). unfold qstands, denotes. cbn [fst snd]. rewrite !eqc. intros (N & HX & HY & HT) E.
  assert (D := den_T p PR _ _ _ _ _ _ N HX HY HT). rewrite D, E. apply cong_eq. ring.
Qed.
Lemma one_mod : 1 mod p = 1.
Proof. apply Z.mod_1_l. pose proof (prime_ge_2 p PR). lia. Qed.

Lemma flat_ladder A v k X Y Z T : on_curve p d A -> eqp p (fst A * snd A) 0 -> (0 < k)%nat -> 0 <= v < 2 ^ Z.of_nat k ->
  qstands (X, Y, Z, T) A -> T mod p = T ->
  exists C, multiple p d A (Z.to_nat (2 ^ Z.of_nat k - 1 - v)) C /\
    qstands (quad_ladder p d (Z.testbit v) k (0 mod p, 1 mod p, 1 mod p, 1 mod p) (X, Y, Z, T)) C.
Proof.
  intros CA F K V S RT. assert (ET := flat_T _ _ S F). cbn [snd] in ET. unfold eqp in ET. rewrite RT, Zmod_0_l in ET. subst T.
  rewrite Zmod_0_l, one_mod, ladder_flat by exact K.
  destruct (quad_ladder_stands A (Z.testbit v) CA k 0 (0, 1, 1, 0) (X, Y, Z, 0) neutral A qneutral S) as (C & M & Q).
  - constructor. apply same_refl.
  - exact (mult_one p PR d A).
  - exists C. split; [|exact Q].
    assert (E := turned_eq v k 0). rewrite Z.mul_0_l, Z.mod_small in E by exact V. rewrite <- (Nat2Z.id (turned _ _ _)), E in M. exact M.
Qed.
End Ladder.

Section Flat.
Variables (p d nbits : Z) (ok canon : val -> Prop) (den : val -> Z) (mask : bool -> val) (base : string -> list val -> res (list val * list val)).
Hypothesis PR : prime p.
Hypothesis L : lawful p d nbits ok canon den mask base.
Hypothesis N : non_square p d.
Lemma residues_stand P A : stands_for p den P A <-> qstands p (residues p den P) A.
Proof.
  destruct A as (x, y). unfold stands_for, qstands, residues, denotes. cbn [fst snd]. rewrite !(eqc p PR).
  pose proof (cong_mod p (den (eX P)) (prime_nz p PR)) as CX. pose proof (cong_mod p (den (eY P)) (prime_nz p PR)) as CY.
  pose proof (cong_mod p (den (eZ P)) (prime_nz p PR)) as CZ. pose proof (cong_mod p (den (eT P)) (prime_nz p PR)) as CT.
  rewrite CX, CY, CZ, CT. reflexivity.
Qed.
Lemma scalar_mult_flat P n A : on_curve p d A -> eqp p (fst A * snd A) 0 -> all_ok ok P -> ok n -> stands_for p den P A ->
  exists R n' C, scalar_mult_calls base P n R n' /\ stands_for p den R C /\
    multiple p d A (Z.to_nat (2 ^ nbits - 1 - den n mod p)) C.
Proof.
  intros CA F OP ON SP. destruct (scalar_mult_exact p d nbits ok canon den mask base PR L P n OP ON) as (R & n' & K & _ & _ & _ & _ & Q).
  destruct (law_nbits _ _ _ _ _ _ _ _ L) as (_ & NB & PB).
  pose proof (prime_ge_2 p PR) as P2. pose proof (Z.mod_pos_bound (den n) p ltac:(lia)).
  destruct (flat_ladder p PR d N A (den n mod p) (Z.to_nat nbits) (den (eX P) mod p) (den (eY P) mod p) (den (eZ P) mod p) (den (eT P) mod p))
    as (C & M & S); auto; [lia|rewrite Z2Nat.id; lia|now apply residues_stand|apply Zmod_mod|].
  rewrite Z2Nat.id in M by lia. exists R, n', C. split; [exact K|split; [|exact M]]. apply residues_stand. rewrite Q. exact S.
Qed.
End Flat.

Lemma flat_small : (prime 13 /\ lawful 13 2 4 (ideal_ok 13) (fun _ => True) ideal_den ideal_mask small_field) /\ non_square 13 2 /\
  on_curve 13 2 (1, 0) /\ all_ok (ideal_ok 13) (Ext (VInt 5) (VInt 0) (VInt 5) (VInt 0)) /\
  stands_for 13 ideal_den (Ext (VInt 5) (VInt 0) (VInt 5) (VInt 0)) (1, 0) /\
  (forall md, exists R n', curve_call md small_field "P::scalar_mult"%string [VInt 5; VInt 0; VInt 5; VInt 0; VInt 5] = Ok ([], coords R ++ [n']) /\
    stands_for 13 ideal_den R (0, 12)).
Proof.
  split; [exact small_lawful|split; [exact small_non_square|split; [reflexivity|split; [|split]]]].
  - repeat split; eexists; (split; [reflexivity|split; [discriminate|reflexivity]]).
  - repeat split; vm_compute; congruence.
  - intros md. assert (E : exists X Y Z T n', curve_call md small_field "P::scalar_mult"%string [VInt 5; VInt 0; VInt 5; VInt 0; VInt 5] =
      Ok ([], [VInt X; VInt Y; VInt Z; VInt T; n']) /\ denotes 13 X Y Z T (0, 12)).
    { destruct md; vm_compute; do 5 eexists; (split; [reflexivity|repeat split; congruence]). }
    destruct E as (X & Y & Z & T & n' & E & D). exists (Ext (VInt X) (VInt Y) (VInt Z) (VInt T)), n'. split; [exact E|exact D].
Qed.
