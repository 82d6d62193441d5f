(** The Edwards addition law is an abelian group law: associativity,
    commutativity, neutral element, inverses; multiples of a point and their
    period.  No model of the code. *)
From Coq Require Import ZArith Znumtheory Lia Ring Setoid Bool.
From Verif Require Import NumTheory Zp EdwardsSpec EdwardsAlg.
Local Open Scope Z_scope.

(** ** Polynomial identities mod p.  With v = 1 - d x^2, w = 1/v and D = 1/d the
    curve equation reads x^2 = D - D v, y^2 = w - D w + D, so that ring, rewriting
    with these, decides identities between points of the curve. *)
Section Poly.
Variable p : Z.
Lemma zp_rt : ring_theory 0 1 Z.add Z.mul Z.sub Z.opp (cong p).
Proof. constructor; intros; apply cong_eq; ring. Qed.
Lemma zp_st : Setoid_Theory Z (cong p).
Proof. split; red; intros; [reflexivity|symmetry; auto|etransitivity; eauto]. Qed.
Lemma zp_ext : ring_eq_ext Z.add Z.mul Z.opp (cong p).
Proof. split; repeat intro; [rewrite H, H0|rewrite H, H0|rewrite H]; reflexivity. Qed.
Add Ring zp_ring_cong : zp_rt (setoid zp_st zp_ext).

Lemma assoc_xy x1 y1 x2 y2 x3 y3 v1 v2 v3 w1 w2 w3 d D :
  cong p (x1 * x1) (D - D * v1) -> cong p (x2 * x2) (D - D * v2) -> cong p (x3 * x3) (D - D * v3) ->
  cong p (y1 * y1) (w1 - D * w1 + D) -> cong p (y2 * y2) (w2 - D * w2 + D) -> cong p (y3 * y3) (w3 - D * w3 + D) ->
  cong p (v1 * w1) 1 -> cong p (v2 * w2) 1 -> cong p (v3 * w3) 1 -> cong p (d * D) 1 ->
  let n12 := x1 * y2 + y1 * x2 in let m12 := y1 * y2 - x1 * x2 in let k12 := d * x1 * x2 * y1 * y2 in
  let n23 := x2 * y3 + y2 * x3 in let m23 := y2 * y3 - x2 * x3 in let k23 := d * x2 * x3 * y2 * y3 in
  cong p ((n12 * (1 - k12) * y3 + m12 * (1 + k12) * x3) * ((1 + k23) * (1 - k23) + d * x1 * y1 * n23 * m23))
    ((n23 * (1 - k23) * y1 + m23 * (1 + k23) * x1) * ((1 + k12) * (1 - k12) + d * x3 * y3 * n12 * m12)) /\
  cong p ((m12 * (1 + k12) * y3 - n12 * (1 - k12) * x3) * ((1 + k23) * (1 - k23) - d * x1 * y1 * n23 * m23))
    ((m23 * (1 + k23) * y1 - n23 * (1 - k23) * x1) * ((1 + k12) * (1 - k12) - d * x3 * y3 * n12 * m12)).
Proof.
  intros X1 X2 X3 Y1 Y2 Y3 V1 V2 V3 DD. cbv zeta.
  split; ring [X1 X2 X3 Y1 Y2 Y3 V1 V2 V3 DD].
Qed.
Lemma curve_forms d D x y w : cong p (d * D) 1 -> cong p ((1 - d * x * x) * w) 1 ->
  cong p (x * x + y * y) (1 + d * x * x * y * y) ->
  cong p (x * x) (D - D * (1 - d * x * x)) /\ cong p (y * y) (w - D * w + D).
Proof.
  intros DD W C. assert (X : cong p (x * x) (D - D * (1 - d * x * x))) by ring [DD]. split; [exact X|].
  assert (Y : cong p (y * y * (1 - d * x * x)) (1 - x * x)).
  { transitivity (x * x + y * y - d * x * x * y * y - x * x); [ring|]. rewrite C. ring. }
  transitivity (y * y * ((1 - d * x * x) * w)); [rewrite W; ring|].
  transitivity ((y * y * (1 - d * x * x)) * w); [ring|]. rewrite Y.
  transitivity (w - w * (x * x)); [ring|]. rewrite X. transitivity (w - D * w + D * ((1 - d * x * x) * w)); [ring|]. rewrite W. ring.
Qed.
Lemma clear_x a b n m k x y d l : cong p (a * (1 + k)) n -> cong p (b * (1 - k)) m ->
  cong p (l * (1 + d * a * x * b * y)) (a * y + b * x) ->
  cong p (l * ((1 + k) * (1 - k) + d * x * y * n * m)) (n * (1 - k) * y + m * (1 + k) * x).
Proof.
  intros A B E. rewrite <- A, <- B.
  transitivity (l * (1 + d * a * x * b * y) * ((1 + k) * (1 - k))); [ring|]. rewrite E. ring.
Qed.
Lemma clear_y a b n m k x y d l : cong p (a * (1 + k)) n -> cong p (b * (1 - k)) m ->
  cong p (l * (1 - d * a * x * b * y)) (b * y - a * x) ->
  cong p (l * ((1 + k) * (1 - k) - d * x * y * n * m)) (m * (1 + k) * y - n * (1 - k) * x).
Proof.
  intros A B E. rewrite <- A, <- B.
  transitivity (l * (1 - d * a * x * b * y) * ((1 + k) * (1 - k))); [ring|]. rewrite E. ring.
Qed.
Lemma cross l r DL DR NL NR : cong p (l * DL) NL -> cong p (r * DR) NR -> cong p (NL * DR) (NR * DL) ->
  cong p (DL * DR * l) (DL * DR * r).
Proof.
  intros A B C. transitivity ((l * DL) * DR); [ring|]. rewrite A, C, <- B. ring.
Qed.
End Poly.

Section Group.
Variable p : Z.
Hypothesis P : prime p.
Variable d : Z.
Hypothesis N : non_square p d.
Let eqc := eqc p P.

Lemma d_nz : ~ cong p d 0.
Proof. intros H. apply (N 0). apply eqc. now rewrite H. Qed.
Lemma v_nz x : ~ cong p (1 - d * x * x) 0.
Proof.
  intros H. assert (X : ~ cong p x 0).
  { intros X. apply (zp_one p P). rewrite X in H. replace (1 - d * 0 * 0) with 1 in H by ring. exact H. }
  destruct (zp_inv p P x X) as (i & I). apply (N i). apply eqc. symmetry.
  transitivity (d * (x * i) * (x * i)); [rewrite I; apply cong_eq; ring|].
  transitivity ((d * x * x) * (i * i)); [apply cong_eq; ring|].
  assert (E : cong p (d * x * x) 1). { destruct H as [k K]. exists (- k). lia. }
  rewrite E. apply cong_eq. ring.
Qed.

Lemma sum_assoc P1 P2 P3 A B L R : on_curve p d P1 -> on_curve p d P2 -> on_curve p d P3 ->
  edwards_sum p d P1 P2 A -> edwards_sum p d A P3 L -> edwards_sum p d P2 P3 B -> edwards_sum p d P1 B R -> same_point p L R.
Proof.
  destruct P1 as (x1, y1), P2 as (x2, y2), P3 as (x3, y3), A as (ax, ay), B as (bx, b_y), L as (lx, ly), R as (rx, ry).
  unfold on_curve, edwards_sum, same_point. cbn [fst snd]. rewrite !eqc.
  intros C1 C2 C3 (NA1 & NA2 & AX & AY) (NL1 & NL2 & LX & LY) (NB1 & NB2 & BX & BY) (NR1 & NR2 & RX & RY).
  destruct (zp_inv p P d d_nz) as (D & DD).
  destruct (zp_inv p P _ (v_nz x1)) as (w1 & W1), (zp_inv p P _ (v_nz x2)) as (w2 & W2), (zp_inv p P _ (v_nz x3)) as (w3 & W3).
  destruct (curve_forms p d D x1 y1 w1 DD W1 C1) as (X1 & Y1), (curve_forms p d D x2 y2 w2 DD W2 C2) as (X2 & Y2),
    (curve_forms p d D x3 y3 w3 DD W3 C3) as (X3 & Y3).
  destruct (assoc_xy p x1 y1 x2 y2 x3 y3 _ _ _ w1 w2 w3 d D X1 X2 X3 Y1 Y2 Y3 W1 W2 W3 DD) as (EX & EY).
  cbv zeta in EX, EY.
  pose proof (clear_x p _ _ _ _ _ _ _ _ _ AX AY LX) as LX'. pose proof (clear_y p _ _ _ _ _ _ _ _ _ AX AY LY) as LY'.
  assert (RX1 : cong p (rx * (1 + d * bx * x1 * b_y * y1)) (bx * y1 + b_y * x1)).
  { replace (1 + d * bx * x1 * b_y * y1) with (1 + d * x1 * bx * y1 * b_y) by ring. rewrite RX. apply cong_eq. ring. }
  assert (RY1 : cong p (ry * (1 - d * bx * x1 * b_y * y1)) (b_y * y1 - bx * x1)).
  { replace (1 - d * bx * x1 * b_y * y1) with (1 - d * x1 * bx * y1 * b_y) by ring. rewrite RY. apply cong_eq. ring. }
  pose proof (clear_x p _ _ _ _ _ _ _ _ _ BX BY RX1) as RX'. pose proof (clear_y p _ _ _ _ _ _ _ _ _ BX BY RY1) as RY'.
  assert (ML : forall s k n m, cong p (ax * (1 + k)) n -> cong p (ay * (1 - k)) m ->
    cong p ((1 + k) * (1 - k) * (1 + s * (d * ax * x3 * ay * y3))) ((1 + k) * (1 - k) + s * (d * x3 * y3 * n * m))).
  { intros s k n m A B. rewrite <- A, <- B. apply cong_eq. ring. }
  assert (MR : forall s k n m, cong p (bx * (1 + k)) n -> cong p (b_y * (1 - k)) m ->
    cong p ((1 + k) * (1 - k) * (1 + s * (d * x1 * bx * y1 * b_y))) ((1 + k) * (1 - k) + s * (d * x1 * y1 * n * m))).
  { intros s k n m A B. rewrite <- A, <- B. apply cong_eq. ring. }
  split.
  - apply (cancel p P _ _ _) with (2 := cross p _ _ _ _ _ _ LX' RX' EX).
    apply (nz_mul p P).
    + intros H. pose proof (ML 1 _ _ _ AX AY) as M. rewrite !Z.mul_1_l in M. rewrite H in M. revert M. repeat apply (nz_mul p P); auto.
    + intros H. pose proof (MR 1 _ _ _ BX BY) as M. rewrite !Z.mul_1_l in M. rewrite H in M. revert M. repeat apply (nz_mul p P); auto.
  - apply (cancel p P _ _ _) with (2 := cross p _ _ _ _ _ _ LY' RY' EY).
    apply (nz_mul p P).
    + intros H. pose proof (ML (-1) _ _ _ AX AY) as M.
      replace (1 + -1 * (d * ax * x3 * ay * y3)) with (1 - d * ax * x3 * ay * y3) in M by ring.
      replace (-1 * (d * x3 * y3 * (x1 * y2 + y1 * x2) * (y1 * y2 - x1 * x2))) with (- (d * x3 * y3 * (x1 * y2 + y1 * x2) * (y1 * y2 - x1 * x2))) in M by ring.
      rewrite Z.add_opp_r, H in M. revert M. repeat apply (nz_mul p P); auto.
    + intros H. pose proof (MR (-1) _ _ _ BX BY) as M.
      replace (1 + -1 * (d * x1 * bx * y1 * b_y)) with (1 - d * x1 * bx * y1 * b_y) in M by ring.
      replace (-1 * (d * x1 * y1 * (x2 * y3 + y2 * x3) * (y2 * y3 - x2 * x3))) with (- (d * x1 * y1 * (x2 * y3 + y2 * x3) * (y2 * y3 - x2 * x3))) in M by ring.
      rewrite Z.add_opp_r, H in M. revert M. repeat apply (nz_mul p P); auto.
Qed.

(** ** The remaining laws *)
Lemma same_refl A : same_point p A A. Proof. split; reflexivity. Qed.
Lemma same_sym A B : same_point p A B -> same_point p B A. Proof. intros (H & K). split; now symmetry. Qed.
Lemma same_trans A B C : same_point p A B -> same_point p B C -> same_point p A C.
Proof. intros (H & K) (H' & K'). split; etransitivity; eauto. Qed.
Lemma on_curve_ext A B : same_point p A B -> on_curve p d A -> on_curve p d B.
Proof.
  destruct A as (a, b), B as (a', b'). unfold same_point, on_curve. cbn [fst snd]. rewrite !eqc. intros (H & K) C.
  rewrite <- H, <- K. exact C.
Qed.
Lemma sum_ext A A' B B' C C' : same_point p A A' -> same_point p B B' -> same_point p C C' -> edwards_sum p d A B C -> edwards_sum p d A' B' C'.
Proof.
  destruct A as (a1, a2), A' as (a1', a2'), B as (b1, b2), B' as (b1', b2'), C as (c1, c2), C' as (c1', c2').
  unfold same_point, edwards_sum. cbn [fst snd]. rewrite !eqc. intros (H1 & H2) (H3 & H4) (H5 & H6) (N1 & N2 & X & Y).
  rewrite <- H1, <- H2, <- H3, <- H4, <- H5, <- H6. auto.
Qed.
Lemma sum_comm A B C : edwards_sum p d A B C -> edwards_sum p d B A C.
Proof.
  destruct A as (a1, a2), B as (b1, b2), C as (c1, c2). unfold edwards_sum. rewrite !eqc.
  replace (d * b1 * a1 * b2 * a2) with (d * a1 * b1 * a2 * b2) by ring.
  intros (N1 & N2 & X & Y). repeat split; auto; [rewrite X|rewrite Y]; apply cong_eq; ring.
Qed.
Lemma neutral_on : on_curve p d neutral.
Proof. unfold on_curve, neutral. apply eqc, cong_eq. ring. Qed.
Lemma sum_neutral A : edwards_sum p d A neutral A.
Proof.
  destruct A as (a, b). unfold edwards_sum, neutral. rewrite !eqc.
  replace (d * a * 0 * b * 1) with 0 by ring. rewrite Z.add_0_r, Z.sub_0_r.
  repeat split; try apply (zp_one p P); apply cong_eq; ring.
Qed.
Lemma sum_inverse x y : on_curve p d (x, y) -> edwards_sum p d (x, y) (- x, y) neutral.
Proof.
  intros C. assert (C' : on_curve p d (- x, y)).
  { revert C. unfold on_curve. replace (- x * - x + y * y) with (x * x + y * y) by ring. replace (d * - x * - x * y * y) with (d * x * x * y * y) by ring. auto. }
  destruct (complete p P d (x, y) (- x, y) N C C') as ((cx, cy) & (N1 & N2 & X & Y)).
  revert C N1 N2. unfold edwards_sum, neutral, on_curve. rewrite !eqc. intros C N1 N2. repeat split; auto.
  - apply cong_eq. ring.
  - rewrite Z.mul_1_l. symmetry. replace (y * y - x * - x) with (x * x + y * y) by ring. rewrite C. apply cong_eq. ring.
Qed.
Lemma sum_ex A B : on_curve p d A -> on_curve p d B -> exists C, edwards_sum p d A B C /\ on_curve p d C.
Proof. intros CA CB. destruct (complete p P d A B N CA CB) as (C & S). exists C. split; [exact S|]. exact (sum_on_curve p P d A B C CA CB S). Qed.

(** ** Multiples *)
Lemma mult_ext A n R R' : same_point p R R' -> multiple p d A n R -> multiple p d A n R'.
Proof.
  intros E H. destruct H as [R H|n R Q H S].
  - constructor. eapply same_trans; [apply same_sym; eassumption|exact H].
  - econstructor; [exact H|]. eapply sum_ext; [apply same_refl|apply same_refl|exact E|exact S].
Qed.
Lemma mult_on A : on_curve p d A -> forall n R, multiple p d A n R -> on_curve p d R.
Proof.
  intros C n R H. induction H as [R H|n R Q H IH S].
  - eapply on_curve_ext; [apply same_sym; exact H|exact neutral_on].
  - eapply sum_on_curve; [exact P|exact IH|exact C|exact S].
Qed.
Lemma mult_ex A n : on_curve p d A -> exists R, multiple p d A n R.
Proof.
  intros C. induction n as [|n (R & H)]; [exists neutral; constructor; apply same_refl|].
  destruct (sum_ex R A (mult_on A C _ _ H) C) as (Q & S & _). exists Q. econstructor; eauto.
Qed.
Lemma mult_unique A n : forall R R', multiple p d A n R -> multiple p d A n R' -> same_point p R R'.
Proof.
  induction n as [|n IH]; intros R R' H H'; inversion H; inversion H'; subst.
  - eapply same_trans; [eassumption|now apply same_sym].
  - eapply (sum_unique p P); [eassumption|]. eapply sum_ext; [|apply same_refl|apply same_refl|eassumption]. apply IH; assumption.
Qed.
Lemma mult_add A : on_curve p d A -> forall n m R S T, multiple p d A n R -> multiple p d A m S -> edwards_sum p d R S T -> multiple p d A (n + m) T.
Proof.
  intros C n. induction m as [|m IH]; intros R S T HR HS HT; inversion HS as [? E|? S' ? HS' Q]; subst.
  - rewrite Nat.add_0_r. apply (mult_ext A n R T); [|exact HR]. apply (sum_unique p P d R neutral); [apply sum_neutral|].
    eapply sum_ext; [apply same_refl|exact E|apply same_refl|exact HT].
  - assert (CR := mult_on A C _ _ HR). assert (CS := mult_on A C _ _ HS').
    destruct (sum_ex R S' CR CS) as (U & SU & CU). destruct (sum_ex U A CU C) as (V & SV & CV).
    rewrite Nat.add_succ_r. apply (mult_ext A _ V T); [|econstructor; [eapply IH; eassumption|exact SV]].
    exact (sum_assoc R S' A U S V T CR CS C SU SV Q HT).
Qed.
Lemma mult_mul A : on_curve p d A -> forall n m R S, multiple p d A n R -> multiple p d R m S -> multiple p d A (n * m) S.
Proof.
  intros C n. induction m as [|m IH]; intros R S HR HS; inversion HS as [? E|? S' ? HS' Q]; subst.
  - rewrite Nat.mul_0_r. now constructor.
  - rewrite Nat.mul_succ_r. eapply mult_add; [exact C|eapply IH; eassumption|exact HR|exact Q].
Qed.
Lemma mult_one A : multiple p d A 1 A.
Proof. econstructor; [constructor; apply same_refl|]. apply sum_comm, sum_neutral. Qed.
Lemma mult_neutral A n R : same_point p A neutral -> multiple p d A n R -> same_point p R neutral.
Proof.
  intros E H. induction H as [R H|n R Q H IH S]; [exact H|].
  eapply (sum_unique p P); [exact S|]. eapply sum_ext; [apply same_sym; exact IH|apply same_sym; exact E|apply same_refl|apply sum_neutral].
Qed.

Lemma period A q R0 : on_curve p d A -> prime q -> multiple p d A (Z.to_nat q) R0 -> same_point p R0 neutral -> ~ same_point p A neutral ->
  forall n R, multiple p d A n R -> (same_point p R neutral <-> (q | Z.of_nat n)).
Proof.
  intros C PQ H0 E0 NA n R H. assert (Q0 := prime_ge_2 q PQ). split.
  - intros E. destruct (Zdivide_dec q (Z.of_nat n)) as [D|D]; [exact D|]. exfalso. apply NA.
    assert (G := prime_rel_prime q PQ _ D). apply rel_prime_bezout in G. destruct G as [u v B].
    (* u q + v n = 1 *)
    set (w := Z.to_nat (v mod q)). assert (W : Z.of_nat w = v mod q) by (unfold w; apply Z2Nat.id, Z.mod_pos_bound; lia).
    set (k := Z.to_nat ((Z.of_nat n * (v mod q)) / q)).
    assert (K : Z.of_nat k = (Z.of_nat n * (v mod q)) / q).
    { unfold k. apply Z2Nat.id. apply Z.div_pos; [|lia]. apply Z.mul_nonneg_nonneg; [lia|apply Z.mod_pos_bound; lia]. }
    assert (M : (Z.of_nat n * (v mod q)) mod q = 1).
    { rewrite Zmult_mod_idemp_r. replace (Z.of_nat n * v) with (1 + - u * q) by lia. rewrite Z_mod_plus_full. apply Z.mod_small. lia. }
    assert (X : (n * w = Z.to_nat q * k + 1)%nat).
    { apply Nat2Z.inj. rewrite Nat2Z.inj_add, !Nat2Z.inj_mul, W, K, Z2Nat.id by lia.
      pose proof (Z.div_mod (Z.of_nat n * (v mod q)) q). lia. }
    destruct (mult_ex R w (mult_on A C _ _ H)) as (S & HS). destruct (mult_ex R0 k (mult_on A C _ _ H0)) as (S' & HS').
    assert (ES := mult_neutral R w S E HS). assert (ES' := mult_neutral R0 k S' E0 HS').
    assert (HM := mult_mul A C _ _ _ _ H HS). assert (HM' := mult_mul A C _ _ _ _ H0 HS').
    assert (HA : multiple p d A (Z.to_nat q * k + 1) A).
    { eapply mult_add; [exact C|exact HM'|apply mult_one|]. eapply sum_ext; [apply same_sym; exact ES'|apply same_refl|apply same_refl|apply sum_comm, sum_neutral]. }
    rewrite <- X in HA. eapply same_trans; [eapply mult_unique; [exact HA|exact HM]|exact ES].
  - intros (k & K). assert (K0 : 0 <= k) by nia.
    destruct (mult_ex R0 (Z.to_nat k) (mult_on A C _ _ H0)) as (S' & HS').
    assert (HM' := mult_mul A C _ _ _ _ H0 HS'). replace (Z.to_nat q * Z.to_nat k)%nat with n in HM' by nia.
    eapply same_trans; [eapply mult_unique; [exact H|exact HM']|]. eapply mult_neutral; eauto.
Qed.

(** ** Computing multiples, in projective coordinates *)
Definition proj : Type := (Z * Z * Z)%type.
Definition padd (red : Z -> Z) (P Q : proj) : proj :=
  let '(X1, Y1, Z1) := P in let '(X2, Y2, Z2) := Q in
  let A := red (Z1 * Z2) in let B := red (A * A) in let C := red (X1 * X2) in let D := red (Y1 * Y2) in
  let E := red (d * red (C * D)) in let F := B - E in let G := B + E in
  (red (red (A * F) * red ((X1 + Y1) * (X2 + Y2) - C - D)), red (red (A * G) * (D - C)), red (F * G)).
Fixpoint pmul (red : Z -> Z) (P : proj) (e : positive) : proj :=
  match e with
  | xH => P
  | xO e => let Q := pmul red P e in padd red Q Q
  | xI e => let Q := pmul red P e in padd red (padd red Q Q) P
  end.
Definition pden (R : proj) (A : affine) : Prop := let '(X, Y, Z) := R in ~ cong p Z 0 /\ cong p (fst A * Z) X /\ cong p (snd A * Z) Y.
Lemma padd_steps X1 Y1 Z1 X2 Y2 Z2 x1 y1 x2 y2 x3 y3 A B C D CD E AF AG SS X3 Y3 Z3 : let k := d * x1 * x2 * y1 * y2 in
  cong p A (Z1 * Z2) -> cong p B (A * A) -> cong p C (X1 * X2) -> cong p D (Y1 * Y2) -> cong p CD (C * D) -> cong p E (d * CD) ->
  cong p AF (A * (B - E)) -> cong p AG (A * (B + E)) ->
  cong p SS ((X1 + Y1) * (X2 + Y2) - C - D) -> cong p X3 (AF * SS) -> cong p Y3 (AG * (D - C)) -> cong p Z3 ((B - E) * (B + E)) ->
  ~ cong p Z1 0 -> cong p (x1 * Z1) X1 -> cong p (y1 * Z1) Y1 -> ~ cong p Z2 0 -> cong p (x2 * Z2) X2 -> cong p (y2 * Z2) Y2 ->
  ~ cong p (1 + k) 0 -> ~ cong p (1 - k) 0 -> cong p (x3 * (1 + k)) (x1 * y2 + y1 * x2) -> cong p (y3 * (1 - k)) (y1 * y2 - x1 * x2) ->
  ~ cong p Z3 0 /\ cong p (x3 * Z3) X3 /\ cong p (y3 * Z3) Y3.
Proof.
  intros k EA EB EC ED ECD EE EAF EAG ES EX EY EZ NZ1 HX1 HY1 NZ2 HX2 HY2 N1 N2 HX HY.
  rewrite EX, ES, EY, EAF, EAG. set (W := Z1 * Z2 * (Z1 * Z2)).
  assert (NW : ~ cong p W 0) by (unfold W; repeat apply (nz_mul p P); auto).
  assert (HE : cong p E (W * k)).
  { rewrite EE, ECD, EC, ED, <- HX1, <- HX2, <- HY1, <- HY2. apply cong_eq. unfold W, k. ring. }
  assert (HB : cong p B W) by (rewrite EB, EA; reflexivity).
  assert (HZ : cong p Z3 (W * (1 - k) * (W * (1 + k)))) by (rewrite EZ, HE, HB; apply cong_eq; ring).
  assert (HD : cong p (D - C) ((y1 * y2 - x1 * x2) * (Z1 * Z2))) by (rewrite ED, EC, <- HX1, <- HX2, <- HY1, <- HY2; apply cong_eq; ring).
  assert (HS : cong p ((X1 + Y1) * (X2 + Y2) - C - D) ((x1 * y2 + y1 * x2) * (Z1 * Z2))) by (rewrite ED, EC, <- HX1, <- HX2, <- HY1, <- HY2; apply cong_eq; ring).
  rewrite HD, HS, HZ, HE, HB, EA. split; [repeat apply (nz_mul p P); auto|]. split.
  - rewrite <- HX. apply cong_eq. unfold W. ring.
  - rewrite <- HY. apply cong_eq. unfold W. ring.
Qed.
Lemma padd_ok red P1 P2 A B C : (forall x, cong p (red x) x) -> pden P1 A -> pden P2 B -> edwards_sum p d A B C -> pden (padd red P1 P2) C.
Proof.
  destruct P1 as ((X1, Y1), Z1), P2 as ((X2, Y2), Z2), A as (x1, y1), B as (x2, y2), C as (x3, y3).
  unfold edwards_sum, pden. rewrite !eqc. cbn [fst snd]. intros R (NZ1 & HX1 & HY1) (NZ2 & HX2 & HY2) (N1 & N2 & HX & HY).
  eapply padd_steps; first [apply R|eassumption].
Qed.
Lemma pmul_ok red P1 A : (forall x, cong p (red x) x) -> on_curve p d A -> pden P1 A -> forall e, exists R, multiple p d A (Pos.to_nat e) R /\ pden (pmul red P1 e) R.
Proof.
  intros R C H. induction e as [e (Q & M & D)|e (Q & M & D)|]; cbn [pmul].
  - assert (CQ := mult_on A C _ _ M). destruct (sum_ex Q Q CQ CQ) as (S & HS & CS). destruct (sum_ex S A CS C) as (T & HT & _). exists T. split.
    + replace (Pos.to_nat e~1) with (Pos.to_nat e + Pos.to_nat e + 1)%nat by lia. eapply mult_add; [exact C|eapply mult_add; [exact C|exact M|exact M|exact HS]|apply mult_one|exact HT].
    + eapply padd_ok; eauto. eapply padd_ok; eauto.
  - assert (CQ := mult_on A C _ _ M). destruct (sum_ex Q Q CQ CQ) as (S & HS & CS). exists S. split.
    + replace (Pos.to_nat e~0) with (Pos.to_nat e + Pos.to_nat e)%nat by lia. eapply mult_add; [exact C|exact M|exact M|exact HS].
    + eapply padd_ok; eauto.
  - exists A. split; [apply mult_one|exact H].
Qed.
Definition kills (red : Z -> Z) (x y : Z) (q : Z) : bool :=
  match q with
  | Zpos e => let '(X, Y, Z) := pmul red (x, y, 1) e in (X mod p =? 0) && ((Y - Z) mod p =? 0)
  | _ => false
  end.
Lemma kills_ok red x y q : (forall z, cong p (red z) z) -> on_curve p d (x, y) -> kills red x y q = true ->
  exists R, multiple p d (x, y) (Z.to_nat q) R /\ same_point p R neutral.
Proof.
  intros R C K. unfold kills in K. destruct q as [|e|e]; try discriminate.
  destruct (pmul_ok red (x, y, 1) (x, y) R C) with (e := e) as (Q & M & D).
  { unfold pden. cbn [fst snd]. rewrite !Z.mul_1_r. repeat split; try reflexivity. apply (zp_one p P). }
  exists Q. split; [exact M|]. destruct (pmul red (x, y, 1) e) as ((X, Y), W). apply andb_true_iff in K as (KX & KY).
  apply Z.eqb_eq in KX, KY. destruct D as (NZ & DX & DY). destruct Q as (qx, qy). cbn [fst snd] in DX, DY. unfold same_point, neutral. cbn [fst snd].
  assert (P0 := prime_ge_2 p P).
  assert (X0 : cong p X 0). { apply Z.mod_divide in KX; [|lia]. unfold cong. now rewrite Z.sub_0_r. }
  assert (Y0 : cong p Y W). { apply Z.mod_divide in KY; [|lia]. exact KY. }
  rewrite !eqc. split; apply (cancel p P _ _ W NZ).
  - rewrite Z.mul_0_r, Z.mul_comm, DX. exact X0.
  - rewrite Z.mul_1_r, Z.mul_comm, DY. exact Y0.
Qed.
End Group.
