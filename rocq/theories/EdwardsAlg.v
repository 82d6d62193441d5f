(** Algebra of the Edwards curve x^2+y^2 = 1+dx^2y^2 mod a prime: completeness,
    closure, and the extended-coordinate formulas.  No model of the code. *)
From Coq Require Import ZArith Znumtheory Lia NsatzTactic.
From Verif Require Import NumTheory Zp EdwardsSpec.
Local Open Scope Z_scope.

Section Alg.
Variable p : Z.
Hypothesis P : prime p.
(** The integers with congruence mod a prime form an integral domain, so that
    the standard library's nsatz decides polynomial consequences mod p. *)
Local Instance zp_ops : (@Ring_ops Z 0 1 Z.add Z.mul Z.sub Z.opp (cong p)) := {}.
Local Instance zp_ring : (Ring (Ro:=zp_ops)).
Proof.
  constructor; unfold equality, eq_notation, addition, add_notation, multiplication, mul_notation,
    subtraction, sub_notation, opposite, opp_notation, zero, zero_notation, one, one_notation.
  all: try typeclasses eauto. all: try (intros; apply cong_eq; ring).
Defined.
Local Instance zp_cring : (Cring (Rr:=zp_ring)).
Proof. red. intros. apply cong_eq. apply Z.mul_comm. Defined.
Local Instance zp_dom : Integral_domain (Rcr:=zp_cring).
Proof.
  constructor.
  - intros a b H. change (cong p (a*b) 0) in H. change (cong p a 0 \/ cong p b 0). unfold cong in *. rewrite !Z.sub_0_r in *. now apply prime_mult.
  - intros H. change (cong p 1 0) in H. unfold cong in H. rewrite Z.sub_0_r in H. pose proof (prime_ge_2 p P). apply Z.divide_1_r_nonneg in H; lia.
Defined.

Lemma prime_nz : p <> 0.
Proof. pose proof (prime_ge_2 p P). lia. Qed.
Lemma eqc a b : eqp p a b <-> cong p a b.
Proof. symmetry. apply cong_mod_eq, prime_nz. Qed.

Ltac ns := nsatz.

Lemma nz_mul a b : ~ cong p a 0 -> ~ cong p b 0 -> ~ cong p (a * b) 0.
Proof. intros A B C. destruct (zp_zero p P _ _ C); auto. Qed.
Lemma nz_cong a b : cong p a b -> ~ cong p a 0 -> ~ cong p b 0.
Proof. intros E A B. apply A. now rewrite E. Qed.
Lemma nz_div a b : ~ cong p a 0 -> exists q, cong p (q * a) b.
Proof. intros A. destruct (zp_inv p P a A) as (i & I). exists (b * i). ns. Qed.
Lemma cancel a b c : ~ cong p c 0 -> cong p (c * a) (c * b) -> cong p a b.
Proof. exact (zp_cancel p P a b c). Qed.

Lemma not_square_odd d : non_square p d -> ~ cong p 2 0.
Proof.
  intros N H. unfold cong in H. rewrite Z.sub_0_r in H. pose proof (prime_ge_2 p P).
  assert (E2 : p = 2) by (apply Z.divide_pos_le in H; lia).
  apply (N d). apply eqc. unfold cong. rewrite E2. destruct (Z.Even_or_Odd d) as [[k K]|[k K]]; subst d.
  - exists (2 * k * k - k). ring.
  - exists (2 * k * k + k). ring.
Qed.

(** ** Completeness *)
Lemma complete_pm d x1 y1 x2 y2 s : non_square p d -> cong p (s * s) 1 ->
  cong p (x1 * x1 + y1 * y1) (1 + d * x1 * x1 * y1 * y1) ->
  cong p (x2 * x2 + y2 * y2) (1 + d * x2 * x2 * y2 * y2) ->
  ~ cong p (d * x1 * x2 * y1 * y2) s.
Proof.
  intros N S1 C1 C2 E.
  assert (NX : ~ cong p (x1 * y1) 0).
  { intros Z0. apply (zp_one p P). ns. }
  assert (K : forall t, cong p (t * t) 1 -> ~ cong p (x2 + t * y2) 0 -> False).
  { intros t T1 NT. destruct (zp_inv p P _ (nz_mul _ _ NX NT)) as (i & I).
    apply (N ((x1 + t * s * y1) * i)). apply eqc. ns. }
  apply (K 1); [now apply cong_eq|]. intros A.
  apply (K (-1)); [now apply cong_eq|]. intros B.
  assert (X2 : cong p x2 0).
  { apply (cancel x2 0 2 (not_square_odd d N)). replace (2 * x2) with ((x2 + 1 * y2) + (x2 + -1 * y2)) by ring. now rewrite A, B. }
  apply (zp_one p P). ns.
Qed.

Lemma complete d P1 P2 : non_square p d -> on_curve p d P1 -> on_curve p d P2 ->
  exists P3, edwards_sum p d P1 P2 P3.
Proof.
  destruct P1 as (x1, y1), P2 as (x2, y2). intros N C1 C2. cbn in C1, C2. rewrite eqc in C1, C2.
  assert (A : ~ cong p (1 + d * x1 * x2 * y1 * y2) 0).
  { intros H. apply (complete_pm d x1 y1 x2 y2 (-1) N); auto; [now apply cong_eq|]. destruct H as [k K]. exists k. lia. }
  assert (B : ~ cong p (1 - d * x1 * x2 * y1 * y2) 0).
  { intros H. apply (complete_pm d x1 y1 x2 y2 1 N); auto; [now apply cong_eq|]. destruct H as [k K]. exists (- k). lia. }
  destruct (nz_div _ (x1 * y2 + y1 * x2) A) as (x3 & X3).
  destruct (nz_div _ (y1 * y2 - x1 * x2) B) as (y3 & Y3).
  exists (x3, y3). unfold edwards_sum. rewrite !eqc. auto.
Qed.

Lemma sum_unique d P1 P2 P3 P4 : edwards_sum p d P1 P2 P3 -> edwards_sum p d P1 P2 P4 -> same_point p P3 P4.
Proof.
  destruct P1 as (x1, y1), P2 as (x2, y2), P3 as (x3, y3), P4 as (x4, y4). unfold edwards_sum, same_point. cbn [fst snd]. rewrite !eqc.
  intros (A & B & X3 & Y3) (_ & _ & X4 & Y4). split.
  - apply (cancel _ _ _ A). ns.
  - apply (cancel _ _ _ B). ns.
Qed.

Lemma sum_on_curve d P1 P2 P3 : on_curve p d P1 -> on_curve p d P2 -> edwards_sum p d P1 P2 P3 -> on_curve p d P3.
Proof.
  destruct P1 as (x1, y1), P2 as (x2, y2), P3 as (x3, y3). unfold edwards_sum, on_curve. rewrite !eqc.
  intros C1 C2 (A & B & X3 & Y3).
  destruct (zp_inv p P _ A) as (i & I). destruct (zp_inv p P _ B) as (j & J).
  assert (Q : cong p ((x1*y2+x2*y1)*(x1*y2+x2*y1)*(1-d*x1*x2*y1*y2)*(1-d*x1*x2*y1*y2) + (y1*y2-x1*x2)*(y1*y2-x1*x2)*(1+d*x1*x2*y1*y2)*(1+d*x1*x2*y1*y2))
    ((1+d*x1*x2*y1*y2)*(1+d*x1*x2*y1*y2)*(1-d*x1*x2*y1*y2)*(1-d*x1*x2*y1*y2) + d*(x1*y2+x2*y1)*(x1*y2+x2*y1)*(y1*y2-x1*x2)*(y1*y2-x1*x2))) by ns.
  assert (N2 : ~ cong p (((1 + d * x1 * x2 * y1 * y2) * (1 + d * x1 * x2 * y1 * y2)) * ((1 - d * x1 * x2 * y1 * y2) * (1 - d * x1 * x2 * y1 * y2))) 0).
  { repeat apply nz_mul; auto. }
  apply (cancel _ _ _ N2). clear - X3 Y3 Q P.
  revert X3 Y3 Q. generalize (1 + d * x1 * x2 * y1 * y2), (1 - d * x1 * x2 * y1 * y2), (y1 * y2 - x1 * x2).
  replace (y1 * x2) with (x2 * y1) by ring. generalize (x1 * y2 + x2 * y1). intros n1 a b n2 X3 Y3 Q. ns.
Qed.

(** ** Extended coordinates *)
Lemma den_T X Y Z T x y : ~ cong p Z 0 -> cong p (x * Z) X -> cong p (y * Z) Y -> cong p (T * Z) (X * Y) -> cong p T (x * y * Z).
Proof. intros N A B C. apply (cancel _ _ Z N). ns. Qed.

Lemma add_formulas d X1 Y1 Z1 T1 X2 Y2 Z2 T2 X3 Y3 Z3 T3 P1 P2 P3 :
  denotes p X1 Y1 Z1 T1 P1 -> denotes p X2 Y2 Z2 T2 P2 -> edwards_sum p d P1 P2 P3 ->
  (let a := X1 * X2 in let b := Y1 * Y2 in let c := T1 * d * T2 in let dd := Z1 * Z2 in
   let e := (X1 + Y1) * (X2 + Y2) - a - b in let f := dd - c in let g := dd + c in let h := b - a in
   cong p X3 (e * f) /\ cong p Y3 (g * h) /\ cong p Z3 (f * g) /\ cong p T3 (e * h)) ->
  denotes p X3 Y3 Z3 T3 P3.
Proof.
  destruct P1 as (x1, y1), P2 as (x2, y2), P3 as (x3, y3). unfold denotes, edwards_sum. cbn [fst snd]. cbv zeta. rewrite !eqc.
  intros (NZ1 & A1 & B1 & C1) (NZ2 & A2 & B2 & C2) (NA & NB & S1 & S2) (EX & EY & EZ & ET).
  pose proof (den_T _ _ _ _ _ _ NZ1 A1 B1 C1) as D1. pose proof (den_T _ _ _ _ _ _ NZ2 A2 B2 C2) as D2.
  assert (F : cong p (Z1 * Z2 - T1 * d * T2) (Z1 * Z2 * (1 - d * x1 * x2 * y1 * y2))) by (rewrite D1, D2; apply cong_eq; ring).
  assert (G : cong p (Z1 * Z2 + T1 * d * T2) (Z1 * Z2 * (1 + d * x1 * x2 * y1 * y2))) by (rewrite D1, D2; apply cong_eq; ring).
  assert (E : cong p ((X1 + Y1) * (X2 + Y2) - X1 * X2 - Y1 * Y2) (Z1 * Z2 * (x3 * (1 + d * x1 * x2 * y1 * y2)))).
  { rewrite S1, <- A1, <- B1, <- A2, <- B2. apply cong_eq. ring. }
  assert (H : cong p (Y1 * Y2 - X1 * X2) (Z1 * Z2 * (y3 * (1 - d * x1 * x2 * y1 * y2)))).
  { rewrite S2, <- A1, <- B1, <- A2, <- B2. apply cong_eq. ring. }
  rewrite F, G, E, H in *. split; [|split; [|split]].
  - rewrite EZ. repeat apply nz_mul; auto.
  - rewrite EX, EZ. apply cong_eq. ring.
  - rewrite EY, EZ. apply cong_eq. ring.
  - rewrite ET, EZ, EX, EY. apply cong_eq. ring.
Qed.

Lemma double_formulas d X1 Y1 Z1 X3 Y3 Z3 T3 P1 P3 :
  denotes_xyz p X1 Y1 Z1 P1 -> on_curve p d P1 -> edwards_sum p d P1 P1 P3 ->
  (let a := X1 * X1 in let b := Y1 * Y1 in let c := Z1 * Z1 * 2 in
   let e := (X1 + Y1) * (X1 + Y1) - a - b in let g := a + b in let f := g - c in let h := a - b in
   cong p X3 (e * f) /\ cong p Y3 (g * h) /\ cong p Z3 (f * g) /\ cong p T3 (e * h)) ->
  denotes p X3 Y3 Z3 T3 P3.
Proof.
  destruct P1 as (x, y), P3 as (x3, y3). unfold denotes, denotes_xyz, edwards_sum, on_curve. cbn [fst snd]. cbv zeta. rewrite !eqc.
  intros (NZ1 & A1 & B1) C (NA & NB & S1 & S2) (EX & EY & EZ & ET).
  assert (G : cong p (X1 * X1 + Y1 * Y1) (Z1 * Z1 * (1 + d * x * x * y * y))) by (rewrite <- A1, <- B1, <- C; apply cong_eq; ring).
  assert (F : cong p (X1 * X1 + Y1 * Y1 - Z1 * Z1 * 2) (- (Z1 * Z1 * (1 - d * x * x * y * y)))) by (rewrite G; apply cong_eq; ring).
  assert (E : cong p ((X1 + Y1) * (X1 + Y1) - X1 * X1 - Y1 * Y1) (Z1 * Z1 * (x3 * (1 + d * x * x * y * y)))).
  { rewrite S1, <- A1, <- B1. apply cong_eq. ring. }
  assert (H : cong p (X1 * X1 - Y1 * Y1) (- (Z1 * Z1 * (y3 * (1 - d * x * x * y * y))))).
  { rewrite S2, <- A1, <- B1. apply cong_eq. ring. }
  rewrite F, G, E, H in *. split; [|split; [|split]].
  - rewrite EZ. intros K. apply (nz_mul _ _ (nz_mul _ _ (nz_mul _ _ NZ1 NZ1) NB) (nz_mul _ _ (nz_mul _ _ NZ1 NZ1) NA)).
    revert K. unfold cong. rewrite !Z.sub_0_r. intros K. apply Z.divide_opp_r in K.
    eapply Z.divide_trans; [exact K|]. exists 1. ring.
  - rewrite EX, EZ. apply cong_eq. ring.
  - rewrite EY, EZ. apply cong_eq. ring.
  - rewrite ET, EZ, EX, EY. apply cong_eq. ring.
Qed.

(** ** Tripling: the code computes the right Y/Z but the wrong X/Z *)
Section Triple.
Variables (d x y x2 y2 x3 y3 : Z).
Hypothesis C : cong p (x * x + y * y) (1 + d * x * x * y * y).
Let s := x * x + y * y.
Let m := y * y - x * x.
Let u := 1 + d * x2 * x * y2 * y.
Let w := 1 - d * x2 * x * y2 * y.
Hypothesis NS : ~ cong p s 0.
Hypothesis NS' : ~ cong p (2 - s) 0.
Hypothesis NU : ~ cong p u 0.
Hypothesis NW : ~ cong p w 0.
Hypothesis X2 : cong p (x2 * s) (2 * x * y).
Hypothesis Y2 : cong p (y2 * (2 - s)) m.
Hypothesis X3 : cong p (x3 * u) (x2 * y + y2 * x).
Hypothesis Y3 : cong p (y3 * w) (y2 * y - x2 * x).
Let dxy : cong p (d * x * y * (x * y)) (s - 1).
Proof. unfold s. rewrite C. apply cong_eq. ring. Qed.
Let key : cong p (s * (2 - s) * (d * x2 * x * y2 * y)) (2 * m * (s - 1)).
Proof.
  transitivity ((x2 * s) * (y2 * (2 - s)) * (d * x * y)); [apply cong_eq; ring|]. rewrite X2, Y2.
  transitivity (2 * m * (d * x * y * (x * y))); [apply cong_eq; ring|]. now rewrite dxy.
Qed.
Let G : cong p (s * m + x * x * (2 * (2 - s))) (s * (2 - s) * u).
Proof.
  transitivity (s * (2 - s) + s * (2 - s) * (d * x2 * x * y2 * y)); [|apply cong_eq; unfold u; ring].
  rewrite key. apply cong_eq. unfold s, m. ring.
Qed.
Let F : cong p (s * m - y * y * (2 * (2 - s))) (- (s * (2 - s) * w)).
Proof.
  transitivity (- (s * (2 - s)) + s * (2 - s) * (d * x2 * x * y2 * y)); [|apply cong_eq; unfold w; ring].
  rewrite key. apply cong_eq. unfold s, m. ring.
Qed.
Let XE : cong p (x3 * (s * m + x * x * (2 * (2 - s)))) (x * (y * y * (2 * (2 - s)) + s * m)).
Proof.
  rewrite G. transitivity (s * (2 - s) * (x3 * u)); [apply cong_eq; ring|]. rewrite X3.
  transitivity ((x2 * s) * (2 - s) * y + (y2 * (2 - s)) * s * x); [apply cong_eq; ring|]. rewrite X2, Y2. apply cong_eq. ring.
Qed.
Let YH : cong p (y3 * (s * m - y * y * (2 * (2 - s)))) (y * (x * x * (2 * (2 - s)) - s * m)).
Proof.
  rewrite F. transitivity (- (s * (2 - s) * (y3 * w))); [apply cong_eq; ring|]. rewrite Y3.
  transitivity ((x2 * s) * (2 - s) * x - (y2 * (2 - s)) * s * y); [apply cong_eq; ring|]. rewrite X2, Y2. apply cong_eq. ring.
Qed.
Variables (X Y Z XX YY ZZ TT : Z).
Hypothesis NZ : ~ cong p Z 0.
Hypothesis DX : cong p (x * Z) X.
Hypothesis DY : cong p (y * Z) Y.
Let yy := Y * Y.
Let xx := X * X.
Let ap := yy + xx.
Let b := (Z * Z * 2 - ap) * 2.
Let xb := xx * b.
Let yb := yy * b.
Let aa := ap * (yy - xx).
Let f := aa - yb.
Let g := aa - xb.
Let xe := X * (yb + aa).
Let yh := Y * (xb - aa).
Hypothesis EX : cong p XX (xe * (Z * f)).
Hypothesis EY : cong p YY (yh * (Z * g)).
Hypothesis EZ : cong p ZZ (Z * f * (Z * g)).
Hypothesis ET : cong p TT (xe * yh).
Let Ef : cong p f (Z * Z * Z * Z * (s * m - y * y * (2 * (2 - s)))).
Proof. unfold f, aa, yb, ap, b, xx, yy, ap, xx, yy. rewrite <- DX, <- DY. apply cong_eq. unfold s, m. ring. Qed.
Let Exe : cong p xe (Z * Z * Z * Z * Z * (x3 * (s * m + x * x * (2 * (2 - s))))).
Proof. rewrite XE. unfold xe, aa, yb, ap, b, xx, yy, ap, xx, yy. rewrite <- DX, <- DY. apply cong_eq. unfold s, m. ring. Qed.
Let Eyh : cong p yh (Z * Z * Z * Z * Z * (y3 * (s * m - y * y * (2 * (2 - s))))).
Proof. rewrite YH. unfold yh, aa, xb, ap, b, xx, yy, ap, xx, yy. rewrite <- DX, <- DY. apply cong_eq. unfold s, m. ring. Qed.
Let Eg : cong p g (Z * Z * Z * Z * (s * m - x * x * (2 * (2 - s)))).
Proof. unfold g, aa, xb, ap, b, xx, yy, ap, xx, yy. rewrite <- DX, <- DY. apply cong_eq. unfold s, m. ring. Qed.
Lemma triple_y : cong p (y3 * ZZ) YY /\ cong p (TT * ZZ) (XX * YY).
Proof.
  split.
  - rewrite EZ, EY, Eyh, Ef. apply cong_eq. ring.
  - rewrite ET, EZ, EX, EY. apply cong_eq. ring.
Qed.
Let nf : ~ cong p f 0.
Proof.
  rewrite Ef. apply nz_mul; [repeat apply nz_mul; auto|]. rewrite F. intros H.
  apply (nz_mul _ _ (nz_mul _ _ NS NS') NW). revert H. unfold cong. rewrite !Z.sub_0_r. intros H. apply (proj1 (Z.divide_opp_r _ _)) in H. exact H.
Qed.
Hypothesis TWO : ~ cong p 2 0.
Hypothesis C3 : cong p (x3 * x3 + y3 * y3) (1 + d * x3 * x3 * y3 * y3).
Lemma triple_x : (~ cong p ZZ 0 /\ cong p (x3 * ZZ) XX) <-> cong p x3 0.
Proof.
  split.
  - intros (N & E). rewrite EZ, EX, Exe, Eg in E.
    assert (K : cong p (x3 * (2 * (x * x * (2 * (2 - s))))) 0).
    { apply (cancel _ _ (Z * Z * Z * Z * Z * Z * f)); [repeat apply nz_mul; auto|].
      transitivity (xe * (Z * f) - Z * Z * Z * Z * Z * (x3 * (s * m - x * x * (2 * (2 - s)))) * (Z * f)).
      - rewrite Exe. apply cong_eq. ring.
      - rewrite Exe. rewrite <- E. apply cong_eq. ring. }
    apply (zp_zero p P) in K. destruct K as [K|K]; auto.
    apply (zp_zero p P) in K. destruct K as [K|K]; [contradiction|].
    apply (zp_zero p P) in K. destruct K as [K|K].
    + assert (x0 : cong p x 0) by (apply (zp_zero p P) in K; tauto).
      assert (x20 : cong p x2 0). { apply (cancel _ _ s NS). rewrite (Z.mul_comm s x2), X2, x0. apply cong_eq. ring. }
      apply (cancel _ _ u NU). rewrite (Z.mul_comm u x3), X3, x0, x20. apply cong_eq. ring.
    + apply (zp_zero p P) in K. tauto.
  - intros E. assert (ng : ~ cong p g 0).
    { intros H. apply (zp_one p P). rewrite E in C3.
      assert (N3 : cong p (y3 * y3) 1) by (transitivity (0 * 0 + y3 * y3); [apply cong_eq; ring|]; rewrite C3; apply cong_eq; ring).
      assert (Q : cong p yh 0).
      { transitivity (- (Y * g)); [apply cong_eq; unfold yh, g; ring|]. rewrite H. apply cong_eq. ring. }
      rewrite Eyh in Q. apply (zp_zero p P) in Q. destruct Q as [Q|Q].
      { exfalso. revert Q. repeat apply nz_mul; auto. }
      apply (zp_zero p P) in Q. destruct Q as [Q|Q].
      - rewrite <- N3, Q. apply cong_eq. ring.
      - exfalso. apply nf. rewrite Ef, Q. apply cong_eq. ring. }
    split; [rewrite EZ; repeat apply nz_mul; auto|]. rewrite EX, Exe, E. apply cong_eq. ring.
Qed.
End Triple.

Lemma triple_formulas d X Y Z XX YY ZZ TT P1 P2 P3 :
  p <> 2 -> denotes_xyz p X Y Z P1 -> on_curve p d P1 -> edwards_sum p d P1 P1 P2 -> edwards_sum p d P2 P1 P3 ->
  (let yy := Y * Y in let xx := X * X in let ap := yy + xx in let b := (Z * Z * 2 - ap) * 2 in
   let xb := xx * b in let yb := yy * b in let aa := ap * (yy - xx) in let f := aa - yb in let g := aa - xb in
   let xe := X * (yb + aa) in let yh := Y * (xb - aa) in
   cong p XX (xe * (Z * f)) /\ cong p YY (yh * (Z * g)) /\ cong p ZZ (Z * f * (Z * g)) /\ cong p TT (xe * yh)) ->
  eqp p (snd P3 * ZZ) YY /\ eqp p (TT * ZZ) (XX * YY) /\ (denotes p XX YY ZZ TT P3 <-> eqp p (fst P3) 0).
Proof.
  intros N2 D O S2 S3 (EX & EY & EZ & ET).
  pose proof (sum_on_curve d _ _ _ O O S2) as O2. pose proof (sum_on_curve d _ _ _ O2 O S3) as O3.
  destruct P1 as (x, y), P2 as (x2, y2), P3 as (x3, y3). unfold denotes, denotes_xyz, edwards_sum, on_curve in *. cbn [fst snd] in *. rewrite !eqc in *.
  destruct D as (NZ & DX & DY). destruct S2 as (NA & NB & X2 & Y2). destruct S3 as (NU & NW & X3 & Y3).
  rewrite <- O in NA, X2. replace (1 - d * x * x * y * y) with (2 - (1 + d * x * x * y * y)) in NB, Y2 by ring. rewrite <- O in NB, Y2.
  replace (x * y + y * x) with (2 * x * y) in X2 by ring.
  assert (TWO : ~ cong p 2 0).
  { unfold cong. rewrite Z.sub_0_r. intros H. pose proof (prime_ge_2 p P). apply Z.divide_pos_le in H; lia. }
  pose proof (triple_y d x y x2 y2 y3 O X2 Y2 Y3 X Y Z XX YY ZZ TT DX DY EX EY EZ ET) as (TY & TT').
  pose proof (triple_x d x y x2 y2 x3 y3 O NA NB NU NW X2 Y2 X3 Y3 X Y Z XX ZZ NZ DX DY EX EZ TWO O3) as TX.
  tauto.
Qed.

(** ** zero() and init() set T = 1 *)
Lemma zero_formulas d X1 Y1 Z1 T1 X3 Y3 Z3 T3 P1 : ~ eqp p d 0 -> p <> 2 ->
  denotes p X1 Y1 Z1 T1 P1 -> on_curve p d P1 ->
  (let a := X1 * 0 in let b := Y1 * 1 in let c := T1 * d * 1 in let dd := Z1 * 1 in
   let e := (X1 + Y1) * (0 + 1) - a - b in let f := dd - c in let g := dd + c in let h := b - a in
   cong p X3 (e * f) /\ cong p Y3 (g * h) /\ cong p Z3 (f * g) /\ cong p T3 (e * h)) ->
  (denotes p X3 Y3 Z3 T3 P1 <-> eqp p (fst P1 * snd P1) 0).
Proof.
  destruct P1 as (x, y). unfold denotes, on_curve. cbn [fst snd]. cbv zeta. rewrite !eqc.
  intros ND N2 (NZ & A & B & C) O (EX & EY & EZ & ET).
  pose proof (den_T _ _ _ _ _ _ NZ A B C) as D.
  assert (EX' : cong p X3 (x * Z1 * (Z1 * (1 - d * x * y)))).
  { rewrite EX, D, <- A, <- B. apply cong_eq. ring. }
  assert (EY' : cong p Y3 (y * Z1 * (Z1 * (1 + d * x * y)))).
  { rewrite EY, D, <- A, <- B. apply cong_eq. ring. }
  assert (EZ' : cong p Z3 (Z1 * (1 - d * x * y) * (Z1 * (1 + d * x * y)))).
  { rewrite EZ, D. apply cong_eq. ring. }
  assert (ET' : cong p T3 (x * Z1 * (y * Z1))).
  { rewrite ET, <- A, <- B. apply cong_eq. ring. }
  split.
  - intros (N3 & QX & QY & _). rewrite EZ' in N3. rewrite EX', EZ' in QX. rewrite EY', EZ' in QY.
    assert (NM : ~ cong p (1 - d * x * y) 0) by (intros H; apply N3; rewrite H; apply cong_eq; ring).
    assert (NP : ~ cong p (1 + d * x * y) 0) by (intros H; apply N3; rewrite H; apply cong_eq; ring).
    apply (cancel _ _ d ND).
    assert (KX : cong p (x * (d * x * y)) 0).
    { apply (cancel _ _ (Z1 * Z1 * (1 - d * x * y))); [repeat apply nz_mul; auto|].
      transitivity (x * (Z1 * (1 - d * x * y) * (Z1 * (1 + d * x * y))) - x * Z1 * (Z1 * (1 - d * x * y))); [apply cong_eq; ring|].
      rewrite QX. apply cong_eq. ring. }
    apply (zp_zero p P) in KX. destruct KX as [K|K]; [rewrite K; apply cong_eq; ring|].
    transitivity (d * x * y); [apply cong_eq; ring|]. rewrite K. apply cong_eq. ring.
  - intros E. assert (E' : cong p (d * x * y) 0) by (transitivity (d * (x * y)); [apply cong_eq; ring|]; rewrite E; apply cong_eq; ring).
    rewrite E' in EX', EY', EZ'. rewrite EX', EY', EZ', ET'. split; [|split; [|split]].
    + replace (Z1 * (1 - 0) * (Z1 * (1 + 0))) with (Z1 * Z1) by ring. now apply nz_mul.
    + apply cong_eq. ring.
    + apply cong_eq. ring.
    + apply cong_eq. ring.
Qed.

Lemma init_formulas x y X Y Z T : cong p X x -> cong p Y y -> cong p Z 1 -> cong p T 1 ->
  denotes_xyz p X Y Z (x, y) /\ (denotes p X Y Z T (x, y) <-> eqp p (x * y) 1).
Proof.
  intros EX EY EZ ET. unfold denotes, denotes_xyz. cbn [fst snd]. rewrite !eqc, EX, EY, EZ, ET.
  pose proof (zp_one p P) as N1.
  assert (Hx : cong p (x * 1) x) by (apply cong_eq; ring). assert (Hy : cong p (y * 1) y) by (apply cong_eq; ring).
  replace (1 * 1) with 1 by ring. split; [tauto|]. split; [intros (_ & _ & _ & H); now symmetry|]. intros H. split; auto. split; auto. split; auto. now symmetry.
Qed.
End Alg.
