(** Chord-and-tangent addition on y^2 = x^3 + A x^2 + x, carried over to the
    Edwards curve u^2 + v^2 = 1 + d u^2 v^2 with s^2 = A + 2, d s^2 = A - 2 by
    u = s x / y, v = (x - 1) / (x + 1).  No model of the code. *)
From Coq Require Import ZArith Znumtheory Lia Ring Setoid Bool.
From Verif Require Import NumTheory Zp EdwardsSpec EdwardsAlg GroupLaw GroupSpec MontSpec.
Local Open Scope Z_scope.

Section Mont.
Variable p : Z.
Hypothesis P : prime p.
Variables A s d : Z.
Hypothesis S2 : cong p (s * s) (A + 2).
Hypothesis DS : cong p (d * (s * s)) (A - 2).
Hypothesis N : non_square p d.
Hypothesis S0 : ~ cong p s 0.
Let eqc := eqc p P.

Lemma two_nz : ~ cong p 2 0. Proof. exact (not_square_odd p P d N). Qed.
Lemma sub_zero a b : cong p a b <-> cong p (a - b) 0.
Proof. unfold cong. now rewrite Z.sub_0_r. Qed.
Lemma zdec a : cong p a 0 \/ ~ cong p a 0.
Proof. unfold cong. destruct (Zdivide_dec p (a - 0)); tauto. Qed.

Lemma in_opp a b : a = - b -> cong p b 0 -> cong p a 0.
Proof. intros -> H. rewrite H. reflexivity. Qed.

(** The line y = l x + m and its three points *)
Section Line.
Variables x1 x2 x3 l m : Z.
Hypothesis E1 : cong p A (l * l - x1 - x2 - x3).
Hypothesis E2 : cong p (2 * l * m) (1 - (x1 * x2 + x1 * x3 + x2 * x3)).
Hypothesis E3 : cong p (m * m) (x1 * x2 * x3).
Let y1 := l * x1 + m.
Let y2 := l * x2 + m.
Let y3 := - (l * x3 + m).
Let q := x1 * x2.
Let t := x1 + x2.
Let F := 1 - (x1 * x2 + x1 * x3 + x2 * x3).
Let r1 := 2 * l * m - F.
Let r2 := m * m - x1 * x2 * x3.
Lemma in_ideal a b f g : a - b = r1 * f + r2 * g -> cong p a b.
Proof.
  intros E. apply sub_zero. rewrite E. assert (R1 : cong p r1 0) by (apply sub_zero in E2; exact E2). assert (R2 : cong p r2 0) by (apply sub_zero in E3; exact E3).
  rewrite R1, R2. reflexivity.
Qed.
Lemma line_v : cong p ((x3 - 1) * (y1 * y2 * (x1 + 1) * (x2 + 1) - (A - 2) * x1 * x2 * (x1 - 1) * (x2 - 1)))
  ((x3 + 1) * ((x1 - 1) * (x2 - 1) * (y1 * y2) - (A + 2) * x1 * x2 * (x1 + 1) * (x2 + 1))).
Proof.
  rewrite E1. set (B := 1 + q - x3 * t).
  apply in_ideal with (f := - (t * B - t * (2 * F + r1))) (g := - (2 * B + 4 * t * l * l)). unfold B, r1, r2, F, q, t, y1, y2. ring.
Qed.
Lemma line_u : cong p (x3 * (y1 * y2 * (x1 + 1) * (x2 + 1) + (A - 2) * x1 * x2 * (x1 - 1) * (x2 - 1)))
  (y3 * (x1 * y2 * (x1 + 1) * (x2 - 1) + x2 * y1 * (x1 - 1) * (x2 + 1))).
Proof.
  rewrite E1.
  apply in_ideal with (f := q * (2 * F + r1 + (x3 * t + 2 * x3 + q - 1))) (g := x3 * (q + t + 1) + t * (q - 1) - t * t + 4 * q - 4 * q * l * l).
  unfold r1, r2, F, q, t, y1, y2, y3. ring.
Qed.
End Line.

(** ** A sum as three points of a line *)
Definition on_line (x1 y1 x2 y2 x3 y3 l m : Z) : Prop :=
  cong p y1 (l * x1 + m) /\ cong p y2 (l * x2 + m) /\ cong p y3 (- (l * x3 + m)) /\ cong p A (l * l - x1 - x2 - x3) /\
  cong p (2 * l * m) (1 - (x1 * x2 + x1 * x3 + x2 * x3)) /\ cong p (m * m) (x1 * x2 * x3).
Definition mont (x y : Z) : Prop := cong p (y * y) (x * x * x + A * x * x + x).
Lemma chord_line x1 y1 x2 y2 x3 y3 l : mont x1 y1 -> mont x2 y2 -> ~ cong p x1 x2 -> cong p (l * (x2 - x1)) (y2 - y1) ->
  cong p x3 (l * l - A - x1 - x2) -> cong p y3 (l * (x1 - x3) - y1) -> on_line x1 y1 x2 y2 x3 y3 l (y1 - l * x1).
Proof.
  intros C1 C2 NE L X3 Y3. unfold mont in *. set (m := y1 - l * x1).
  assert (EA : cong p A (l * l - x1 - x2 - x3)) by (rewrite X3; apply cong_eq; ring).
  assert (Y2 : cong p y2 (l * x2 + m)). { unfold m. transitivity (y2 - y1 + y1); [apply cong_eq; ring|]. rewrite <- L. apply cong_eq. ring. }
  set (al := 1 - 2 * l * m - (x1 * x2 + x1 * x3 + x2 * x3)). set (be := x1 * x2 * x3 - m * m).
  assert (F1 : cong p (al * x1 + be) 0).
  { apply sub_zero in C1. rewrite EA in C1. eapply in_opp; [|exact C1]. unfold al, be, m. ring. }
  assert (F2 : cong p (al * x2 + be) 0).
  { apply sub_zero in C2. rewrite EA, Y2 in C2. eapply in_opp; [|exact C2]. unfold al, be. ring. }
  assert (AL : cong p al 0).
  { apply (cancel p P _ _ (x1 - x2)); [now rewrite <- sub_zero|]. rewrite Z.mul_0_r. transitivity (al * x1 + be - (al * x2 + be)); [apply cong_eq; ring|]. rewrite F1, F2. reflexivity. }
  assert (BE : cong p be 0). { rewrite AL in F1. exact F1. }
  repeat split; auto.
  - unfold m. apply cong_eq. ring.
  - rewrite Y3. unfold m. apply cong_eq. ring.
  - apply sub_zero. transitivity (- al); [apply cong_eq; unfold al; ring|]. rewrite AL. reflexivity.
  - apply sub_zero. transitivity (- be); [apply cong_eq; unfold be; ring|]. rewrite BE. reflexivity.
Qed.
Lemma tangent_line x1 y1 x2 y2 x3 y3 l : mont x1 y1 -> cong p x1 x2 -> cong p y1 y2 -> cong p (l * (2 * y1)) (3 * x1 * x1 + 2 * A * x1 + 1) ->
  cong p x3 (l * l - A - x1 - x2) -> cong p y3 (l * (x1 - x3) - y1) -> on_line x1 y1 x2 y2 x3 y3 l (y1 - l * x1).
Proof.
  intros C1 EX EY L X3 Y3. unfold mont in *. set (m := y1 - l * x1).
  assert (EA : cong p A (l * l - x1 - x2 - x3)) by (rewrite X3; apply cong_eq; ring).
  set (al := 1 - 2 * l * m - (x1 * x2 + x1 * x3 + x2 * x3)). set (be := x1 * x2 * x3 - m * m).
  assert (F1 : cong p (al * x1 + be) 0).
  { apply sub_zero in C1. rewrite EA in C1. eapply in_opp; [|exact C1]. unfold al, be, m. ring. }
  assert (AL : cong p al 0).
  { apply sub_zero in L. unfold al. transitivity (- (l * (2 * y1) - (3 * x1 * x1 + 2 * A * x1 + 1))); [|rewrite L; reflexivity].
    rewrite EA, <- EX. unfold m. apply cong_eq. ring. }
  assert (BE : cong p be 0). { rewrite AL in F1. exact F1. }
  repeat split; auto.
  - unfold m. apply cong_eq. ring.
  - rewrite <- EX, <- EY. unfold m. apply cong_eq. ring.
  - rewrite Y3. unfold m. apply cong_eq. ring.
  - apply sub_zero. transitivity (- al); [apply cong_eq; unfold al; ring|]. rewrite AL. reflexivity.
  - apply sub_zero. transitivity (- be); [apply cong_eq; unfold be; ring|]. rewrite BE. reflexivity.
Qed.
Lemma line_third x1 y1 x2 y2 x3 y3 l m : on_line x1 y1 x2 y2 x3 y3 l m -> mont x3 y3.
Proof.
  intros (_ & _ & Y3 & EA & E2 & E3). unfold mont. rewrite Y3, EA. apply (in_ideal x1 x2 x3 l m E2 E3 _ _ x3 1). ring.
Qed.
Lemma line_swap x1 y1 x2 y2 x3 y3 l m : on_line x1 y1 x2 y2 x3 y3 l m -> on_line x2 y2 x1 y1 x3 y3 l m.
Proof.
  intros (Y1 & Y2 & Y3 & EA & E2 & E3). repeat split; auto; etransitivity; eauto; apply cong_eq; ring.
Qed.

(** ** The image on the Edwards curve *)
Definition generic (x y : Z) : Prop := ~ cong p y 0 /\ ~ cong p (x + 1) 0 /\ ~ cong p x 0.
Lemma two_cases x y : mont x y -> (cong p x 0 /\ cong p y 0) \/ generic x y.
Proof.
  unfold mont, generic. intros C. destruct (zdec x) as [X|X].
  - left. split; [exact X|]. assert (Y : cong p (y * y) 0) by (rewrite C, X; apply cong_eq; ring). destruct (zp_zero p P _ _ Y); auto.
  - right. repeat split; auto.
    + intros Y. assert (Q : cong p (x * (x * x + A * x + 1)) 0).
      { transitivity (y * y); [symmetry; rewrite C; apply cong_eq; ring|]. rewrite Y. reflexivity. }
      destruct (zp_zero p P _ _ Q) as [Q'|Q']; [auto|].
      destruct (zp_inv p P (s * s) (nz_mul p P _ _ S0 S0)) as (i & I). apply (N ((2 * x + A) * i)). apply eqc.
      transitivity (d * (s * s) * (s * s) * i * i).
      * rewrite DS, S2. apply sub_zero. transitivity (4 * (x * x + A * x + 1) * (i * i)); [apply cong_eq; ring|]. rewrite Q'. apply cong_eq. ring.
      * transitivity (d * (s * s * i) * (s * s * i)); [apply cong_eq; ring|]. rewrite I. apply cong_eq. ring.
    + intros X1. assert (E : cong p x (-1)) by (apply sub_zero; transitivity (x + 1); [apply cong_eq; ring|exact X1]).
      destruct (zp_inv p P s S0) as (i & I). apply (N (y * i)). apply eqc.
      transitivity (d * (s * s) * i * i).
      * rewrite DS. transitivity (y * y * i * i); [apply cong_eq; ring|]. rewrite C, E. apply cong_eq. ring.
      * transitivity (d * (s * i) * (s * i)); [apply cong_eq; ring|]. rewrite I. apply cong_eq. ring.
Qed.
Definition img (M : mpoint) (E : affine) : Prop :=
  match M with
  | Infinity => cong p (fst E) 0 /\ cong p (snd E) 1
  | Finite x y => cong p (snd E * (x + 1)) (x - 1) /\
      ((cong p x 0 /\ cong p y 0 /\ cong p (fst E) 0) \/ (generic x y /\ cong p (fst E * y) (s * x)))
  end.
Lemma img_ex M : on_mont p A M -> exists E, img M E.
Proof.
  destruct M as [|x y]; cbn [on_mont img]; intros C.
  - exists (0, 1). split; reflexivity.
  - unfold on_montgomery in C. apply eqc in C. destruct (two_cases x y C) as [(X & Y)|G].
    + exists (0, -1). cbn [fst snd]. split; [rewrite X; reflexivity|left; repeat split; auto; reflexivity].
    + pose proof G as (NY & NX & _). destruct (nz_div p P y (s * x) NY) as (u & U). destruct (nz_div p P (x + 1) (x - 1) NX) as (v & V).
      exists (u, v). cbn [fst snd]. split; [exact V|right; split; [exact G|exact U]].
Qed.
Lemma img_on M E : on_mont p A M -> img M E -> on_curve p d E.
Proof.
  destruct E as (u, v), M as [|x y]; cbn [on_mont img fst snd]; unfold on_curve, on_montgomery; rewrite ?eqc.
  - intros _ (U & V). rewrite U, V. apply cong_eq. ring.
  - intros C (V & [(X & Y & U)|((NY & NX & X0) & U)]).
    + assert (V' : cong p v (-1)). { rewrite X in V. replace (v * (0 + 1)) with v in V by ring. exact V. } rewrite U, V'. apply cong_eq. ring.
    + apply (cancel p P _ _ (y * y * ((x + 1) * (x + 1)))); [repeat apply (nz_mul p P); assumption|].
      transitivity ((u * y) * (u * y) * ((x + 1) * (x + 1)) + y * y * ((v * (x + 1)) * (v * (x + 1)))); [apply cong_eq; ring|].
      transitivity (y * y * ((x + 1) * (x + 1)) + d * ((u * y) * (u * y)) * ((v * (x + 1)) * (v * (x + 1)))); [|apply cong_eq; ring].
      rewrite U, V. transitivity ((s * s) * (x * x * ((x + 1) * (x + 1))) + y * y * ((x - 1) * (x - 1))); [apply cong_eq; ring|].
      transitivity (y * y * ((x + 1) * (x + 1)) + d * (s * s) * (x * x) * ((x - 1) * (x - 1))); [|apply cong_eq; ring].
      rewrite DS, S2, C. apply cong_eq. ring.
Qed.
Lemma one_not_minus : ~ cong p 1 (-1).
Proof. intros H. apply two_nz. apply sub_zero in H. exact H. Qed.
Lemma img_v x v : cong p (v * (x + 1)) (x - 1) -> ~ cong p (1 - v) 0.
Proof.
  intros H V. apply two_nz. assert (V' : cong p v 1). { apply sub_zero. transitivity (- (1 - v)); [apply cong_eq; ring|]. rewrite V. reflexivity. }
  rewrite V' in H. apply sub_zero in H. transitivity (1 * (x + 1) - (x - 1)); [apply cong_eq; ring|exact H].
Qed.
Lemma img_x x v : cong p (v * (x + 1)) (x - 1) -> cong p ((1 - v) * x) (1 + v).
Proof. intros H. apply sub_zero. apply sub_zero in H. transitivity (- (v * (x + 1) - (x - 1))); [apply cong_eq; ring|]. rewrite H. reflexivity. Qed.
Lemma img_same M M' E E' : same_mont p M M' -> img M E -> img M' E' -> same_point p E E'.
Proof.
  destruct E as (u, v), E' as (u', v'), M as [|x y], M' as [|x' y']; cbn [same_mont img fst snd]; unfold same_point; cbn [fst snd]; rewrite ?eqc; try tauto.
  - intros _ (U & V) (U' & V'). rewrite U, V, U', V'. split; reflexivity.
  - intros (EX & EY) (V & D) (V' & D'). rewrite <- EX in V'. split.
    + destruct D as [(X & Y & U)|((NY & NX & X0) & U)], D' as [(X' & Y' & U')|((NY' & NX' & X0') & U')].
      * rewrite U, U'. reflexivity.
      * rewrite EX in X. tauto.
      * rewrite <- EX in X'. tauto.
      * apply (cancel p P _ _ y NY). rewrite <- EY, <- EX in U'. rewrite !(Z.mul_comm y), U, U'. reflexivity.
    + assert (NX : ~ cong p (x + 1) 0).
      { destruct D as [(X & _)|((_ & NX & _) & _)]; [|exact NX]. rewrite X. exact (zp_one p P). }
      apply (cancel p P _ _ (x + 1) NX). rewrite !(Z.mul_comm (x + 1)), V, V'. reflexivity.
Qed.
Lemma img_inj M M' E E' : img M E -> img M' E' -> same_point p E E' -> same_mont p M M'.
Proof.
  destruct E as (u, v), E' as (u', v'), M as [|x y], M' as [|x' y']; cbn [same_mont img fst snd]; unfold same_point; cbn [fst snd]; rewrite ?eqc; auto.
  - intros (U & V) (V' & _) (_ & EV). apply (img_v _ _ V'). rewrite <- EV, V. reflexivity.
  - intros (V' & _) (U & V) (_ & EV). apply (img_v _ _ V'). rewrite EV, V. reflexivity.
  - intros (V & D) (V' & D') (EU & EV). pose proof (img_v _ _ V) as NV. rewrite <- EV in V'.
    assert (EX : cong p x x'). { apply (cancel p P _ _ (1 - v) NV). rewrite (img_x _ _ V), (img_x _ _ V'). reflexivity. }
    split; [exact EX|]. destruct D as [(X & Y & U)|((NY & NX & X0) & U)], D' as [(X' & Y' & U')|((NY' & NX' & X0') & U')].
    + rewrite Y, Y'. reflexivity.
    + rewrite EX in X. tauto.
    + rewrite <- EX in X'. tauto.
    + assert (NU : ~ cong p u 0).
      { intros U0. rewrite U0, Z.mul_0_l in U. symmetry in U. destruct (zp_zero p P _ _ U); auto. }
      apply (cancel p P _ _ u NU). rewrite U. rewrite <- EU in U'. rewrite U', EX. reflexivity.
Qed.

(** ** Sums go to sums *)
Lemma sum_on M1 M2 M3 : on_mont p A M1 -> on_mont p A M2 -> mont_sum p A M1 M2 M3 -> on_mont p A M3.
Proof.
  assert (EXT : forall M M', on_mont p A M -> same_mont p M M' -> on_mont p A M').
  { intros [|x y] [|x' y']; cbn [on_mont same_mont]; try tauto. unfold on_montgomery. rewrite !eqc. intros C (X & Y). rewrite <- X, <- Y. exact C. }
  intros C1 C2 H. destruct H as [Q R H|Q R H|x1 y1 x2 y2 H H'|x1 y1 x2 y2 x3 y3 l H1 H2 H3 H4|x1 y1 x2 y2 x3 y3 l H1 H2 H3 H4 H5 H6]; cbn [on_mont] in *; eauto;
    unfold on_montgomery in *; rewrite ?eqc in *.
  - exact (line_third _ _ _ _ _ _ _ _ (chord_line _ _ _ _ _ _ _ C1 C2 H1 H2 H3 H4)).
  - exact (line_third _ _ _ _ _ _ _ _ (tangent_line _ _ _ _ _ _ _ C1 H1 H2 H4 H5 H6)).
Qed.
(* one of the two points is (0, 0) *)
Lemma hom_origin x1 y1 x2 y2 x3 y3 l m E1 E2 E3 : on_line x1 y1 x2 y2 x3 y3 l m -> ~ cong p x2 0 -> cong p x1 0 -> cong p y1 0 ->
  img (Finite x1 y1) E1 -> img (Finite x2 y2) E2 -> img (Finite x3 y3) E3 -> edwards_sum p d E1 E2 E3.
Proof.
  destruct E1 as (u1, v1), E2 as (u2, v2), E3 as (u3, v3). cbn [img fst snd].
  intros (Y1 & Y2 & Y3 & EA & F2 & F3) NX2 X1 Z1 (V1 & D1) (V2 & D2) (V3 & D3).
  assert (U1 : cong p u1 0). { destruct D1 as [(_ & _ & U1)|((_ & _ & NX1) & _)]; tauto. }
  assert (W1 : cong p v1 (-1)). { rewrite X1 in V1. replace (v1 * (0 + 1)) with v1 in V1 by ring. exact V1. }
  assert (M0 : cong p m 0). { rewrite X1, Z1 in Y1. rewrite Y1. apply cong_eq. ring. }
  assert (Q : cong p (x2 * x3) 1).
  { rewrite X1, M0 in F2. apply sub_zero in F2. apply sub_zero. transitivity (2 * l * 0 - (1 - (0 * x2 + 0 * x3 + x2 * x3))); [apply cong_eq; ring|exact F2]. }
  destruct D2 as [(X2 & _)|((NY2 & NP2 & _) & U2)]; [tauto|].
  destruct D3 as [(X3 & _)|((NY3 & NP3 & _) & U3)]; [exfalso; apply (zp_one p P); rewrite <- Q, X3; apply cong_eq; ring|].
  assert (EV : cong p v3 (- v2)).
  { apply (cancel p P _ _ ((x3 + 1) * (x2 + 1))); [now apply (nz_mul p P)|].
    transitivity ((v3 * (x3 + 1)) * (x2 + 1)); [apply cong_eq; ring|]. transitivity (- (v2 * (x2 + 1)) * (x3 + 1)); [|apply cong_eq; ring].
    rewrite V2, V3. apply sub_zero. transitivity (2 * (x2 * x3 - 1)); [apply cong_eq; ring|]. rewrite Q. reflexivity. }
  assert (EU : cong p u3 (- u2)).
  { apply (cancel p P _ _ (y3 * y2)); [now apply (nz_mul p P)|].
    transitivity ((u3 * y3) * y2); [apply cong_eq; ring|]. transitivity (- (u2 * y2) * y3); [|apply cong_eq; ring].
    rewrite U2, U3, Y2, Y3, M0. apply cong_eq. ring. }
  unfold edwards_sum. rewrite !eqc, U1, W1, EU, EV. replace (d * 0 * u2 * -1 * v2) with 0 by ring.
  repeat split; try exact (zp_one p P); apply cong_eq; ring.
Qed.
Lemma hom_line x1 y1 x2 y2 x3 y3 l m E1 E2 E3 : mont x1 y1 -> mont x2 y2 -> on_line x1 y1 x2 y2 x3 y3 l m -> ~ (cong p x1 0 /\ cong p x2 0) ->
  img (Finite x1 y1) E1 -> img (Finite x2 y2) E2 -> img (Finite x3 y3) E3 -> edwards_sum p d E1 E2 E3.
Proof.
  intros C1 C2 L NB I1 I2 I3.
  destruct (two_cases x1 y1 C1) as [(X1 & Y1)|(NY1 & NP1 & NX1)]; [apply (hom_origin x1 y1 x2 y2 x3 y3 l m); auto|].
  destruct (two_cases x2 y2 C2) as [(X2 & Y2)|(NY2 & NP2 & NX2)]; [apply sum_comm; [exact P|]; apply (hom_origin x2 y2 x1 y1 x3 y3 l m); auto; now apply line_swap|].
  assert (O1 : on_curve p d E1) by (apply (img_on (Finite x1 y1)); [apply eqc; exact C1|exact I1]).
  assert (O2 : on_curve p d E2) by (apply (img_on (Finite x2 y2)); [apply eqc; exact C2|exact I2]).
  destruct (complete p P d E1 E2 N O1 O2) as ((u, v) & Z).
  destruct E1 as (u1, v1), E2 as (u2, v2), E3 as (u3, v3). cbn [img fst snd] in *. unfold edwards_sum in *. rewrite !eqc in *.
  destruct Z as (Z1 & Z2 & _). destruct I1 as (V1 & D1), I2 as (V2 & D2), I3 as (V3 & D3).
  destruct D1 as [D1|(_ & U1)]; [tauto|]. destruct D2 as [D2|(_ & U2)]; [tauto|].
  destruct L as (Y1 & Y2 & Y3 & EA & F2 & F3).
  assert (NP3 : ~ cong p (x3 + 1) 0). { destruct D3 as [(X3 & _)|((_ & NP3 & _) & _)]; [|exact NP3]. rewrite X3. exact (zp_one p P). }
  split; [exact Z1|]. split; [exact Z2|]. split.
  - assert (LU := line_u x1 x2 x3 l m EA F2 F3). rewrite <- Y1, <- Y2, <- Y3 in LU.
    destruct D3 as [(X3 & Y30 & U3)|((NY3 & _ & NX3) & U3)].
    + rewrite U3, Z.mul_0_l. symmetry. apply (cancel p P _ _ (y1 * y2 * ((x1 + 1) * (x2 + 1)))); [repeat apply (nz_mul p P); assumption|].
      transitivity ((u1 * y1) * y2 * (x1 + 1) * (v2 * (x2 + 1)) + (v1 * (x1 + 1)) * (u2 * y2) * y1 * (x2 + 1)); [apply cong_eq; ring|].
      rewrite U1, U2, V1, V2, Z.mul_0_r. rewrite Y30, X3 in Y3.
      assert (M0 : cong p m 0). { transitivity (- - (l * 0 + m)); [apply cong_eq; ring|]. rewrite <- Y3. reflexivity. }
      rewrite M0, X3 in F2. assert (Q : cong p (x1 * x2) 1). { apply sub_zero in F2. apply sub_zero. etransitivity; [|exact F2]. apply cong_eq. ring. }
      rewrite Y1, Y2, M0. transitivity (2 * s * l * (x1 * x2) * (x1 * x2 - 1)); [apply cong_eq; ring|]. rewrite Q. apply cong_eq. ring.
    + apply (cancel p P _ _ (y1 * y2 * y3 * ((x1 + 1) * (x2 + 1)))); [repeat apply (nz_mul p P); assumption|].
      transitivity ((u3 * y3) * (y1 * y2 * (x1 + 1) * (x2 + 1) + d * (u1 * y1) * (u2 * y2) * (v1 * (x1 + 1)) * (v2 * (x2 + 1)))); [apply cong_eq; ring|].
      transitivity (y3 * ((u1 * y1) * y2 * (x1 + 1) * (v2 * (x2 + 1)) + (v1 * (x1 + 1)) * (u2 * y2) * y1 * (x2 + 1))); [|apply cong_eq; ring].
      rewrite U1, U2, U3, V1, V2.
      transitivity (s * (x3 * (y1 * y2 * (x1 + 1) * (x2 + 1) + d * (s * s) * x1 * x2 * (x1 - 1) * (x2 - 1)))); [apply cong_eq; ring|].
      rewrite DS, LU. apply cong_eq. ring.
  - assert (LV := line_v x1 x2 x3 l m EA F2 F3). rewrite <- Y1, <- Y2 in LV.
    apply (cancel p P _ _ (y1 * y2 * ((x1 + 1) * (x2 + 1) * (x3 + 1)))); [repeat apply (nz_mul p P); assumption|].
    transitivity ((v3 * (x3 + 1)) * (y1 * y2 * (x1 + 1) * (x2 + 1) - d * (u1 * y1) * (u2 * y2) * (v1 * (x1 + 1)) * (v2 * (x2 + 1)))); [apply cong_eq; ring|].
    transitivity ((x3 + 1) * ((v1 * (x1 + 1)) * (v2 * (x2 + 1)) * (y1 * y2) - (u1 * y1) * (u2 * y2) * ((x1 + 1) * (x2 + 1)))); [|apply cong_eq; ring].
    rewrite U1, U2, V1, V2, V3.
    transitivity ((x3 - 1) * (y1 * y2 * (x1 + 1) * (x2 + 1) - d * (s * s) * x1 * x2 * (x1 - 1) * (x2 - 1))); [apply cong_eq; ring|].
    transitivity ((x3 + 1) * ((x1 - 1) * (x2 - 1) * (y1 * y2) - (s * s) * x1 * x2 * (x1 + 1) * (x2 + 1))); [|apply cong_eq; ring].
    rewrite DS, S2. exact LV.
Qed.
Lemma hom M1 M2 M3 E1 E2 E3 : on_mont p A M1 -> on_mont p A M2 -> mont_sum p A M1 M2 M3 -> img M1 E1 -> img M2 E2 -> img M3 E3 -> edwards_sum p d E1 E2 E3.
Proof.
  intros C1 C2 H I1 I2 I3. assert (O1 := img_on _ _ C1 I1). assert (O2 := img_on _ _ C2 I2).
  destruct H as [Q R H|Q R H|x1 y1 x2 y2 H H'|x1 y1 x2 y2 x3 y3 l H1 H2 H3 H4|x1 y1 x2 y2 x3 y3 l H1 H2 H3 H4 H5 H6].
  - assert (E := img_same _ _ _ _ H I2 I3). apply (sum_comm p P).
    eapply sum_ext; [exact P|apply same_refl| |exact E|apply (sum_neutral p P)]. destruct I1 as (U & V). split; apply eqc; symmetry; assumption.
  - assert (E := img_same _ _ _ _ H I1 I3).
    eapply sum_ext; [exact P|apply same_refl| |exact E|apply (sum_neutral p P)]. destruct I2 as (U & V). split; apply eqc; symmetry; assumption.
  - apply eqc in H, H'. destruct E1 as (u1, v1), E2 as (u2, v2), E3 as (u3, v3). cbn [img fst snd] in *.
    eapply sum_ext; [exact P|apply same_refl| | |apply (sum_inverse p P d N u1 v1 O1)].
    + destruct I1 as (V1 & D1), I2 as (V2 & D2). rewrite <- H in V2. unfold same_point. cbn [fst snd]. rewrite !eqc. split.
      * destruct D1 as [(X & Y & U)|((NY & NX & X0) & U)], D2 as [(X' & Y' & U')|((NY' & NX' & X0') & U')].
        -- rewrite U, U'. reflexivity.
        -- rewrite H in X. tauto.
        -- rewrite <- H in X'. tauto.
        -- apply (cancel p P _ _ y1 NY). transitivity (- (u1 * y1)); [apply cong_eq; ring|]. transitivity (- (u2 * - y1)); [|apply cong_eq; ring].
           assert (Y2 : cong p y2 (- y1)) by (rewrite H'; apply cong_eq; ring). rewrite <- Y2, U, U', H. reflexivity.
      * assert (NX : ~ cong p (x1 + 1) 0). { destruct D1 as [(X & _)|((_ & NX & _) & _)]; [|exact NX]. rewrite X. exact (zp_one p P). }
        apply (cancel p P _ _ (x1 + 1) NX). rewrite !(Z.mul_comm (x1 + 1)), V1, V2. reflexivity.
    + destruct I3 as (U & V). split; apply eqc; symmetry; assumption.
  - cbn [on_mont] in *. unfold on_montgomery in *. rewrite ?eqc in *. refine (hom_line _ _ _ _ _ _ _ _ _ _ _ C1 C2 (chord_line _ _ _ _ _ _ _ C1 C2 H1 H2 H3 H4) _ I1 I2 I3).
    intros (X1 & X2). apply H1. rewrite X1, X2. reflexivity.
  - cbn [on_mont] in *. unfold on_montgomery in *. rewrite ?eqc in *. refine (hom_line _ _ _ _ _ _ _ _ _ _ _ C1 C2 (tangent_line _ _ _ _ _ _ _ C1 H1 H2 H4 H5 H6) _ I1 I2 I3).
    intros (X1 & _). destruct (two_cases x1 y1 C1) as [(_ & Y)|(_ & _ & X)]; tauto.
Qed.

(** ** Sums exist; multiples *)
Lemma mont_sum_ex M1 M2 : on_mont p A M1 -> on_mont p A M2 -> exists M3, mont_sum p A M1 M2 M3.
Proof.
  assert (R : forall M, same_mont p M M) by (intros [|x y]; cbn [same_mont]; [exact I|split; reflexivity]).
  destruct M1 as [|x1 y1]; [intros _ _; exists M2; now constructor|]. destruct M2 as [|x2 y2]; [intros _ _; eexists; constructor; apply R|].
  cbn [on_mont]. unfold on_montgomery. rewrite !eqc. intros C1 C2. destruct (zdec (x1 - x2)) as [X|X].
  - apply sub_zero in X. destruct (zdec (y1 + y2)) as [Y|Y].
    + exists Infinity. constructor; apply eqc; [exact X|]. apply sub_zero. rewrite <- Y. apply cong_eq. ring.
    + assert (E : cong p ((y1 - y2) * (y1 + y2)) 0).
      { transitivity (y1 * y1 - y2 * y2); [apply cong_eq; ring|]. rewrite C1, C2, X. apply cong_eq. ring. }
      destruct (zp_zero p P _ _ E) as [D|D]; [apply sub_zero in D|tauto].
      assert (NY : ~ cong p y1 0). { intros Y1. apply Y. rewrite <- D, Y1. reflexivity. }
      destruct (nz_div p P (2 * y1) (3 * x1 * x1 + 2 * A * x1 + 1) (nz_mul p P _ _ two_nz NY)) as (l & L).
      exists (Finite (l * l - A - x1 - x2) (l * (x1 - (l * l - A - x1 - x2)) - y1)). apply sum_tangent with (l := l); rewrite ?eqc; auto; reflexivity.
  - assert (NX : ~ cong p (x2 - x1) 0). { intros H. apply X. apply (in_opp _ (x2 - x1)); [ring|exact H]. }
    destruct (nz_div p P (x2 - x1) (y2 - y1) NX) as (l & L).
    exists (Finite (l * l - A - x1 - x2) (l * (x1 - (l * l - A - x1 - x2)) - y1)). apply sum_chord with (l := l); rewrite ?eqc; auto; try reflexivity. now rewrite sub_zero.
Qed.
Lemma mont_multiple_img M E : on_mont p A M -> img M E -> forall n R, mont_multiple p A M n R -> on_mont p A R /\ exists F, img R F /\ multiple p d E n F.
Proof.
  intros C I n R H. induction H as [|n R Q H (CR & F & IF & HF) S].
  - split; [exact Logic.I|]. exists neutral. split; [split; reflexivity|]. constructor. apply same_refl.
  - assert (CQ := sum_on _ _ _ CR C S). split; [exact CQ|]. destruct (img_ex Q CQ) as (G & IG). exists G. split; [exact IG|].
    econstructor; [exact HF|]. exact (hom _ _ _ _ _ _ CR C S IF I IG).
Qed.
Lemma mont_multiple_ex M n : on_mont p A M -> exists R, mont_multiple p A M n R.
Proof.
  intros C. induction n as [|n (R & H)]; [exists Infinity; constructor|].
  assert (CR : on_mont p A R). { destruct (img_ex M C) as (E & I). apply (mont_multiple_img M E C I n R H). }
  destruct (mont_sum_ex R M CR C) as (Q & S). exists Q. econstructor; eauto.
Qed.
(* adding multiples adds the scalars *)
Lemma mont_multiple_add M n m R S T U : on_mont p A M -> mont_multiple p A M n R -> mont_multiple p A M m S -> mont_sum p A R S T -> mont_multiple p A M (n + m) U ->
  same_mont p T U.
Proof.
  intros C HR HS HT HU. destruct (img_ex M C) as (E & I). assert (OE := img_on _ _ C I).
  destruct (mont_multiple_img M E C I n R HR) as (CR & ER & IR & KR). destruct (mont_multiple_img M E C I m S HS) as (CS & ES & IS & KS).
  destruct (mont_multiple_img M E C I _ U HU) as (CU & EU & IU & KU). assert (CT := sum_on _ _ _ CR CS HT). destruct (img_ex T CT) as (ET & IT).
  apply (img_inj T U ET EU IT IU). apply (mult_unique p P d E (n + m)); [|exact KU].
  exact (mult_add p P d N E OE n m ER ES ET KR KS (hom _ _ _ _ _ _ CR CS HT IR IS IT)).
Qed.
Lemma mont_assoc M1 M2 M3 B D L R : on_mont p A M1 -> on_mont p A M2 -> on_mont p A M3 ->
  mont_sum p A M1 M2 B -> mont_sum p A B M3 L -> mont_sum p A M2 M3 D -> mont_sum p A M1 D R -> same_mont p L R.
Proof.
  intros C1 C2 C3 HB HL HD HR. assert (CB := sum_on _ _ _ C1 C2 HB). assert (CD := sum_on _ _ _ C2 C3 HD).
  assert (CL := sum_on _ _ _ CB C3 HL). assert (CR := sum_on _ _ _ C1 CD HR).
  destruct (img_ex M1 C1) as (E1 & I1), (img_ex M2 C2) as (E2 & I2), (img_ex M3 C3) as (E3 & I3), (img_ex B CB) as (EB & IB), (img_ex D CD) as (ED & ID),
    (img_ex L CL) as (EL & IL), (img_ex R CR) as (ER & IR).
  apply (img_inj L R EL ER IL IR).
  apply (sum_assoc p P d N E1 E2 E3 EB ED EL ER (img_on _ _ C1 I1) (img_on _ _ C2 I2) (img_on _ _ C3 I3)).
  - exact (hom _ _ _ _ _ _ C1 C2 HB I1 I2 IB).
  - exact (hom _ _ _ _ _ _ CB C3 HL IB I3 IL).
  - exact (hom _ _ _ _ _ _ C2 C3 HD I2 I3 ID).
  - exact (hom _ _ _ _ _ _ C1 CD HR I1 ID IR).
Qed.
End Mont.
