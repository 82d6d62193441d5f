(** Exactly when addition and doubling are right on the shipped curves, given
    that the products are (C57): always on three of them, and a condition on the
    two curves whose fields do not multiply all signed values rightly. *)
From Coq Require Import ZArith Znumtheory List String Lia Bool.
From Verif Require Import Lang Poly Kernel Fields Kfacts Ops Words Codec Normalize Methods Surface Forms Arith Observe NumTheory Safe History Primes Roots Zp
  Refute EdwardsSpec EdwardsAlg Edwards CurveSpec Curves CurveRefute Guarded Domain.
From Verif Require Src_edwards Src_curves.
Import ListNotations.
Local Open Scope string_scope.
Local Open Scope Z_scope.
Local Open Scope list_scope.

(** ** Points with an error in three of the four factors *)
Section Alg.
Variable p : Z.
Hypothesis PP : prime p.
Lemma off_point E F G H E' F' H' S : denotes p (E * F) (G * H) (F * G) (E * H) S ->
  denotes p (E' * F') (G * H') (F' * G) (E' * H') S <-> cong p E' E /\ cong p (H' * F) (H * F') /\ ~ cong p F' 0.
Proof.
  destruct S as (x, y). unfold denotes. cbn [fst snd]. rewrite !(eqc p PP). intros (N & A & B & _).
  assert (NF : ~ cong p F 0). { intros K. apply N. rewrite K. apply cong_eq. ring. }
  assert (NG : ~ cong p G 0). { intros K. apply N. rewrite K. apply cong_eq. ring. }
  assert (XE : cong p (x * G) E). { apply (zp_cancel p PP _ _ F NF). transitivity (x * (F * G)); [apply cong_eq; ring|]. rewrite A. apply cong_eq. ring. }
  assert (YH : cong p (y * F) H). { apply (zp_cancel p PP _ _ G NG). transitivity (y * (F * G)); [apply cong_eq; ring|]. exact B. }
  split.
  - intros (N' & A' & B' & _). assert (NF' : ~ cong p F' 0). { intros K. apply N'. rewrite K. apply cong_eq. ring. }
    split; [|split; [|exact NF']].
    + rewrite <- XE. symmetry. apply (zp_cancel p PP _ _ F' NF'). transitivity (x * (F' * G)); [apply cong_eq; ring|]. rewrite A'. apply cong_eq. ring.
    + assert (YH' : cong p (y * F') H'). { apply (zp_cancel p PP _ _ G NG). transitivity (y * (F' * G)); [apply cong_eq; ring|]. exact B'. }
      rewrite <- YH, <- YH'. apply cong_eq. ring.
  - intros (KE & KH & NF'). split; [|split; [|split]].
    + intros K. destruct (zp_zero p PP _ _ K); auto.
    + rewrite KE, <- XE. apply cong_eq. ring.
    + apply (zp_cancel p PP _ _ F NF). transitivity (y * F * F' * G); [apply cong_eq; ring|]. rewrite YH.
      transitivity (H * F' * G); [apply cong_eq; ring|]. rewrite <- KH. apply cong_eq. ring.
    + apply cong_eq. ring.
Qed.
End Alg.

Section Shipped.
Variable C : crv.
Hypothesis HC : In C all_curves.
Let F := cv_fld C.
Let HF : In F all_fields := curve_field C HC.
Let K := from no_base (cv_tbl C) 8.
Let p := cv_p C.
Let bn f x y o := bin K f (VArr x) (VArr y) (VArr o).
Let un f x o := una K f (VArr x) (VArr o).
Let PP : prime p := prime_p C HC.
Ltac hs := apply (has_all C HC); vm_compute; reflexivity.

Lemma sub_off x y : produced F x -> any_rep F y -> exists o, computes F "sub" x y o /\ bn "F::sub(F)" x y o /\ produced F o /\
  cong p (value F o) (value F x - value F y + 2 * fl_C F * carry F y).
Proof.
  intros X Y. destruct (sub_ok F x y HF (produced_any F x HF X) Y) as (o & R & Ro & V). exists o.
  split; [apply (computes_intro F 1); [auto|cbn; tauto|lia|exact R]|]. split; [intros i; apply (up C HC 3); [lia|hs|now apply sub_val]|]. split; [now apply diff_produced|].
  rewrite V. apply cong_add; [|reflexivity]. apply cong_sub; apply (em C HC), folded_eqmod.
Qed.
Lemma carry_small x : produced F x -> Z.abs (carry F x) <= 2 ^ 20.
Proof.
  intros (_ & _ & T). unfold carry. pose proof (B_pos F HF) as BP. unfold B in BP. destruct (layout_facts F HF) as (_ & _ & _ & Cp & _).
  set (b := 2 ^ fl_tb F) in *. assert (fl_C F <= 2 ^ 10) as Cs.
  { apply Z.leb_le. exact (all_chk (fun F => fl_C F <=? 2 ^ 10) ltac:(vm_compute; reflexivity) F HF). }
  assert (-2 <= top F x / b) by (apply Z.div_le_lower_bound; lia).
  assert (top F x / b <= 2 + 2 ^ 10) by (apply Z.div_le_upper_bound; nia). lia.
Qed.
Lemma small_zero k : Z.abs k <= 2 ^ 22 -> cong p (2 * fl_C F * k) 0 <-> k = 0.
Proof.
  intros S. split; [|intros ->; apply cong_eq; ring]. intros D. unfold cong in D. rewrite Z.sub_0_r in D.
  assert (Cs : 0 < fl_C F <= 2 ^ 10).
  { pose proof (all_chk (fun F => (0 <? fl_C F) && (fl_C F <=? 2 ^ 10)) ltac:(vm_compute; reflexivity) F HF) as Q.
    apply andb_true_iff in Q as (Q & Q'). apply Z.ltb_lt in Q. apply Z.leb_le in Q'. lia. }
  assert (M : 2 ^ 200 < p). { apply Z.ltb_lt. exact (all_chk (fun F => 2 ^ 200 <? modulus F) ltac:(vm_compute; reflexivity) F HF). }
  destruct (Z.eq_dec k 0) as [|N]; auto. exfalso.
  apply Z.divide_abs_r in D. apply Z.divide_pos_le in D; [|nia]. rewrite Z.abs_mul, (Z.abs_eq (2 * fl_C F)) in D by lia.
  assert (2 * fl_C F * Z.abs k <= 2 ^ 11 * 2 ^ 22) by nia. change (2 ^ 11 * 2 ^ 22) with (2 ^ 33) in *. assert (2 ^ 33 < 2 ^ 200) by reflexivity. lia.
Qed.
Lemma twoC_nz : ~ cong p (2 * fl_C F) 0.
Proof. intros Q. assert (1 = 0) as A; [|discriminate A]. apply (small_zero 1); [vm_compute; discriminate|]. now rewrite Z.mul_1_r. Qed.
Lemma em' a b : eqmod F a b <-> cong p a b.
Proof. apply eqmod_cong. exact HF. Qed.
Lemma computes_det op x y o o' : computes F op x y o -> computes F op x y o' -> o = o'.
Proof. intros (R & _) (R' & _). specialize (R Debug). specialize (R' Debug). rewrite R in R'. now injection R' as ->. Qed.
Lemma mul_r x y : produced F x -> produced F y -> exists o, computes F "mul" x y o /\ bn "F::mul(F)" x y o /\ produced F o.
Proof.
  intros X Y. destruct (mul_domain F x y HF X Y) as (o & Co & Po & _). exists o. split; [exact Co|]. split; [|exact Po].
  destruct (mul_runs F x y HF (produced_wide F x HF X) (produced_wide F y HF Y)) as (o' & R & _).
  assert (o' = o) as ->. { destruct Co as (R' & _). specialize (R Debug 16%nat ltac:(lia)). specialize (R' Debug). unfold rust_call in R'. cbn [append] in R'. rewrite R in R'. now injection R' as ->. }
  intros i; apply (up C HC 3); [lia|hs|now apply mul_val].
Qed.
Lemma add_r x y : produced F x -> produced F y -> exists o, computes F "add" x y o /\ bn "F::add(F)" x y o /\ produced F o /\ cong p (value F o) (value F x + value F y).
Proof.
  intros X Y. destruct (add_of C HC x y (produced_any F x HF X) (produced_any F y HF Y)) as (o & B & Co & R & V & _). exists o.
  split; [exact Co|]. split; [exact B|]. split; [now apply sum_produced|exact V].
Qed.
Lemma right_is x y o : right_product F x y -> computes F "mul" x y o -> cong p (value F o) (value F x * value F y).
Proof. intros (o' & Co' & V) Co. rewrite (computes_det _ _ _ _ _ Co Co'). now apply em'. Qed.

Ltac dens :=
  lazymatch goal with
  | |- cong _ ?a ?a => reflexivity
  | D : cong p (value F ?v) _ |- cong p (value F ?v) _ => etransitivity; [exact D|]; dens
  | |- cong _ (_ * _) (_ * _) => apply cong_mul; dens
  | |- cong _ (_ + _) (_ + _) => apply cong_add; dens
  | |- cong _ (_ - _) (_ - _) => apply cong_sub; dens
  end.
Lemma denotes_cong X Y Z T X' Y' Z' T' S : cong p X X' -> cong p Y Y' -> cong p Z Z' -> cong p T T' ->
  denotes p X Y Z T S <-> denotes p X' Y' Z' T' S.
Proof.
  intros QX QY QZ QT. unfold denotes. rewrite !(eqc p PP). now rewrite QX, QY, QZ, QT.
Qed.

Lemma add_exact P Q A B S : produced_point C P -> produced_point C Q -> represents C P A -> represents C Q B ->
  edwards_sum p (cv_d C) A B S -> sum_products_right C P Q ->
  exists R, curve_sum C P Q R /\ produced_point C R /\ (represents C R S <-> sum_condition C P Q).
Proof.
  intros (x1 & y1 & z1 & t1 & -> & PX1 & PY1 & PZ1 & PT1) (x2 & y2 & z2 & t2 & -> & PX2 & PY2 & PZ2 & PT2) RP RQ SU.
  intros (? & ? & ? & ? & ? & ? & ? & ? & dv & td & a & b & c & zz & s1 & s2 & m & u & e & f & g & h & E1 & E2 & RD &
    Ca & Cb & Ct & Cc & Cz & Cs1 & Cs2 & Cm & Cu & Ce & Cf & Cg & Ch & Va & Vb & Vt & Vc & Vzz & Vm & Vx & Vy & Vz & Vt3).
  injection E1 as <- <- <- <-. injection E2 as <- <- <- <-. apply (d_is C HC) in RD. subst dv.
  fold F in Ca, Cb, Ct, Cc, Cz, Cs1, Cs2, Cm, Cu, Ce, Cf, Cg, Ch, Va, Vb, Vt, Vc, Vzz, Vm, Vx, Vy, Vz, Vt3.
  assert (PD : produced F (d_words C)) by now apply d_produced. destruct (d_cong C HC) as (DD & _). fold F p in DD.
  destruct (mul_r _ _ PX1 PX2) as (a' & K1 & Ba & Pa). destruct (computes_det _ _ _ _ _ Ca K1). clear K1. apply (fun R => right_is _ _ _ R Ca) in Va.
  destruct (mul_r _ _ PY1 PY2) as (b' & K1 & Bb & Pb). destruct (computes_det _ _ _ _ _ Cb K1). clear K1. apply (fun R => right_is _ _ _ R Cb) in Vb.
  destruct (mul_r _ _ PT1 PD) as (td' & K1 & Bt & Pt). destruct (computes_det _ _ _ _ _ Ct K1). clear K1. apply (fun R => right_is _ _ _ R Ct) in Vt.
  destruct (mul_r _ _ Pt PT2) as (c' & K1 & Bc & Pc). destruct (computes_det _ _ _ _ _ Cc K1). clear K1. apply (fun R => right_is _ _ _ R Cc) in Vc.
  destruct (mul_r _ _ PZ1 PZ2) as (zz' & K1 & Bzz & Pzz). destruct (computes_det _ _ _ _ _ Cz K1). clear K1. apply (fun R => right_is _ _ _ R Cz) in Vzz.
  destruct (add_r _ _ PX1 PY1) as (s1' & K1 & Bs1 & Ps1 & Vs1). destruct (computes_det _ _ _ _ _ Cs1 K1). clear K1.
  destruct (add_r _ _ PX2 PY2) as (s2' & K1 & Bs2 & Ps2 & Vs2). destruct (computes_det _ _ _ _ _ Cs2 K1). clear K1.
  destruct (mul_r _ _ Ps1 Ps2) as (m' & K1 & Bm & Pm). destruct (computes_det _ _ _ _ _ Cm K1). clear K1. apply (fun R => right_is _ _ _ R Cm) in Vm.
  destruct (sub_off m a Pm (produced_any F a HF Pa)) as (u' & K1 & Bu & Pu & Vu). destruct (computes_det _ _ _ _ _ Cu K1). clear K1.
  destruct (sub_off u b Pu (produced_any F b HF Pb)) as (e' & K1 & Be & Pe & Ve). destruct (computes_det _ _ _ _ _ Ce K1). clear K1.
  destruct (sub_off zz c Pzz (produced_any F c HF Pc)) as (f' & K1 & Bf & Pf & Vf). destruct (computes_det _ _ _ _ _ Cf K1). clear K1.
  destruct (add_r zz c Pzz Pc) as (g' & K1 & Bg & Pg & Vg). destruct (computes_det _ _ _ _ _ Cg K1). clear K1.
  destruct (sub_off b a Pb (produced_any F a HF Pa)) as (h' & K1 & Bh & Ph & Vh). destruct (computes_det _ _ _ _ _ Ch K1). clear K1.
  destruct (mul_r e f Pe Pf) as (x & K1 & Bx & Px). apply (fun R => right_is _ _ _ R K1) in Vx. clear K1.
  destruct (mul_r g h Pg Ph) as (y & K1 & By & Py). apply (fun R => right_is _ _ _ R K1) in Vy. clear K1.
  destruct (mul_r f g Pf Pg) as (z & K1 & Bz & Pz). apply (fun R => right_is _ _ _ R K1) in Vz. clear K1.
  destruct (mul_r e h Pe Ph) as (t & K1 & Bt3 & Pt3). apply (fun R => right_is _ _ _ R K1) in Vt3. clear K1.
  exists (Ext (VArr x) (VArr y) (VArr z) (VArr t)). split; [|split; [exists x, y, z, t; auto|]].
  - assert (RUN : calls no_base (cv_tbl C) 9 "P::add_assign(&P)" (coords (Ext (VArr x1) (VArr y1) (VArr z1) (VArr t1)) ++ coords (Ext (VArr x2) (VArr y2) (VArr z2) (VArr t2)))
      ([], coords (Ext (VArr x) (VArr y) (VArr z) (VArr t)) ++ coords (Ext (VArr x2) (VArr y2) (VArr z2) (VArr t2)))).
    { apply (enter no_base (cv_tbl C) (fun f fn => curve_has_edwards C f fn HC) 8 _ Src_edwards.f_P_add_assign_ref); [reflexivity|].
      unfold coords. cbn [eX eY eZ eT app].
      exact (add_run K fst _ _ _ _ _ _ _ _ _ _ _ _ _ _ _ _ _ _ _ _ _ _ _ _ _ _ Ba Bb (d_runs C HC) Bt Bc Bzz Bs1 Bs2 Bm Bu Be Bf Bg Bh Bx By Bz Bt3). }
    destruct (add_val_call _ _ (fun f fn => curve_has_edwards C f fn HC) _ _ _ _ _ _ _ _ _ _ _ _ _ _ RUN eq_refl) as (C2 & C3 & C4).
    split; [|split; [|split]]; eapply deep16; first [exact RUN|exact C2|exact C3|exact C4|lia].
  - set (v := value F) in *. set (ka := carry F a) in *. set (kb := carry F b) in *. set (kc := carry F c) in *.
    set (E := (v x1 + v y1) * (v x2 + v y2) - v a - v b). set (Fq := v zz - v c). set (G := v zz + v c). set (H := v b - v a).
    assert (D0 : denotes p (E * Fq) (G * H) (Fq * G) (E * H) S).
    { refine (add_formulas p PP (cv_d C) _ _ _ _ _ _ _ _ _ _ _ _ A B S RP RQ SU _). cbv zeta. cbn [eX eY eZ eT coordinate]. fold F.
      unfold E, Fq, G, H. unfold v in *. split; [|split; [|split]]; dens. }
    pose proof (off_point p PP E Fq G H (E + 2 * fl_C F * (ka + kb)) (Fq + 2 * fl_C F * kc) (H + 2 * fl_C F * ka) S D0) as OP.
    assert (VE : cong p (v e) (E + 2 * fl_C F * (ka + kb))).
    { etransitivity; [exact Ve|]. transitivity (v m - v a + 2 * fl_C F * ka - v b + 2 * fl_C F * kb).
      - apply cong_add; [|reflexivity]. apply cong_sub; [exact Vu|reflexivity].
      - unfold E. transitivity ((v x1 + v y1) * (v x2 + v y2) - v a + 2 * fl_C F * ka - v b + 2 * fl_C F * kb); [|apply cong_eq; ring].
        do 2 (apply cong_add; [|reflexivity]; apply cong_sub; [|reflexivity]). unfold v in *. dens. }
    assert (VG : cong p (v g) G) by exact Vg.
    assert (RS : represents C (Ext (VArr x) (VArr y) (VArr z) (VArr t)) S <->
      denotes p ((E + 2 * fl_C F * (ka + kb)) * (Fq + 2 * fl_C F * kc)) (G * (H + 2 * fl_C F * ka)) ((Fq + 2 * fl_C F * kc) * G) ((E + 2 * fl_C F * (ka + kb)) * (H + 2 * fl_C F * ka)) S).
    { apply denotes_cong; cbn [eX eY eZ eT coordinate]; fold F v.
      - etransitivity; [exact Vx|]. apply cong_mul; [exact VE|exact Vf].
      - etransitivity; [exact Vy|]. apply cong_mul; [exact VG|exact Vh].
      - etransitivity; [exact Vz|]. apply cong_mul; [exact Vf|exact VG].
      - etransitivity; [exact Vt3|]. apply cong_mul; [exact VE|exact Vh]. }
    rewrite RS, OP.
    assert (T : (cong p (E + 2 * fl_C F * (ka + kb)) E /\ cong p ((H + 2 * fl_C F * ka) * Fq) (H * (Fq + 2 * fl_C F * kc)) /\ ~ cong p (Fq + 2 * fl_C F * kc) 0) <->
      (ka + kb = 0 /\ eqmod F (ka * (v zz - v c)) (kc * (v b - v a)) /\ ~ eqmod F (v zz - v c + 2 * fl_C F * kc) 0)).
    { rewrite !em'. fold Fq H. split; intros (I1 & I2 & I3); (split; [|split; [|exact I3]]).
      - apply small_zero.
        + pose proof (carry_small a Pa) as SA. pose proof (carry_small b Pb) as SB. fold ka in SA. fold kb in SB. lia.
        + transitivity (E + 2 * fl_C F * (ka + kb) - E); [apply cong_eq; ring|]. rewrite I1. apply cong_eq. ring.
      - apply (zp_cancel p PP _ _ (2 * fl_C F) twoC_nz). transitivity ((H + 2 * fl_C F * ka) * Fq - H * Fq); [apply cong_eq; ring|].
        rewrite I2. apply cong_eq. ring.
      - rewrite I1. apply cong_eq. ring.
      - transitivity (H * Fq + 2 * fl_C F * (ka * Fq)); [apply cong_eq; ring|]. rewrite I2. apply cong_eq. ring. }
    rewrite T. split.
    + intros (I1 & I2 & I3). exists x1, y1, z1, t1, x2, y2, z2, t2, (d_words C), td, a, b, c, zz.
      split; [reflexivity|]. split; [reflexivity|]. split; [destruct (d_right C HC) as (l & RD & _); rewrite <- (d_is C HC l RD); exact RD|].
      fold F. repeat (split; [assumption|]). exact I3.
    + intros (? & ? & ? & ? & ? & ? & ? & ? & dv & td' & a' & b' & c' & zz' & E1 & E2 & RD & Ca' & Cb' & Ct' & Cc' & Cz' & I).
      injection E1 as <- <- <- <-. injection E2 as <- <- <- <-. apply (d_is C HC) in RD. subst dv. fold F in Ca', Cb', Ct', Cc', Cz'.
      pose proof (computes_det _ _ _ _ _ Ca Ca'). pose proof (computes_det _ _ _ _ _ Cb Cb'). pose proof (computes_det _ _ _ _ _ Ct Ct'). subst a' b' td'.
      pose proof (computes_det _ _ _ _ _ Cc Cc'). pose proof (computes_det _ _ _ _ _ Cz Cz'). subst c' zz'. exact I.
Qed.

Lemma double_exact P A S : produced_point C P -> represents C P A -> on_curve p (cv_d C) A ->
  edwards_sum p (cv_d C) A A S -> double_products_right C P ->
  exists R, curve_double C P R /\ produced_point C R /\ (represents C R S <-> double_condition C P).
Proof.
  intros (x1 & y1 & z1 & t1 & -> & PX1 & PY1 & PZ1 & PT1) RP OC SU.
  intros (? & ? & ? & ? & a & b & zz & c & s & m & u & e & f & g & h & E1 & Ca & Cb & Cz & Cc & Cs & Cm & Cu & Ce & Cg & Cf & Ch & Vx & Vy & Vz & Vt3).
  injection E1 as <- <- <- <-. fold F in Ca, Cb, Cz, Cc, Cs, Cm, Cu, Ce, Cg, Cf, Ch, Vx, Vy, Vz, Vt3.
  destruct (sq_is C HC _ _ PX1 Ca) as (Ba & Pa & _ & Va). destruct (sq_is C HC _ _ PY1 Cb) as (Bb & Pb & _ & Vb).
  destruct (sq_is C HC _ _ PZ1 Cz) as (Bzz & Pzz & _ & Vzz). destruct (small_runs C HC zz c Pzz Cc) as (Bc & Ac).
  destruct (add_r _ _ PX1 PY1) as (s' & K1 & Bs & Ps & Vs). destruct (computes_det _ _ _ _ _ Cs K1). clear K1.
  destruct (sq_is C HC s m Ps Cm) as (Bm & Pm & _ & Vm).
  destruct (sub_off m a Pm (produced_any F a HF Pa)) as (u' & K1 & Bu & Pu & Vu). destruct (computes_det _ _ _ _ _ Cu K1). clear K1.
  destruct (sub_off u b Pu (produced_any F b HF Pb)) as (e' & K1 & Be & Pe & Ve). destruct (computes_det _ _ _ _ _ Ce K1). clear K1.
  destruct (add_r a b Pa Pb) as (g' & K1 & Bg & Pg & Vg). destruct (computes_det _ _ _ _ _ Cg K1). clear K1.
  destruct (sub_off g c Pg Ac) as (f' & K1 & Bf & Pf & Vf). destruct (computes_det _ _ _ _ _ Cf K1). clear K1.
  destruct (sub_off a b Pa (produced_any F b HF Pb)) as (h' & K1 & Bh & Ph & Vh). destruct (computes_det _ _ _ _ _ Ch K1). clear K1.
  destruct (mul_r e f Pe Pf) as (x & K1 & Bx & Px). apply (fun R => right_is _ _ _ R K1) in Vx. clear K1.
  destruct (mul_r g h Pg Ph) as (y & K1 & By & Py). apply (fun R => right_is _ _ _ R K1) in Vy. clear K1.
  destruct (mul_r f g Pf Pg) as (z & K1 & Bz & Pz). apply (fun R => right_is _ _ _ R K1) in Vz. clear K1.
  destruct (mul_r e h Pe Ph) as (t & K1 & Bt3 & Pt3). apply (fun R => right_is _ _ _ R K1) in Vt3. clear K1.
  exists (Ext (VArr x) (VArr y) (VArr z) (VArr t)). split; [|split; [exists x, y, z, t; auto|]].
  - assert (RUN : calls no_base (cv_tbl C) 9 "P::double" (coords (Ext (VArr x1) (VArr y1) (VArr z1) (VArr t1))) ([], coords (Ext (VArr x) (VArr y) (VArr z) (VArr t)))).
    { apply (enter no_base (cv_tbl C) (fun f fn => curve_has_edwards C f fn HC) 8 _ Src_edwards.f_P_double); [reflexivity|].
      unfold coords. cbn [eX eY eZ eT app].
      exact (double_run K fst _ _ _ (VArr t1) _ _ _ _ _ _ _ _ _ _ _ _ _ _ _ Ba Bb Bzz Bc Bs Bm Bu Be Bg Bf Bh Bx By Bz Bt3). }
    pose proof (doubled_call _ _ (fun f fn => curve_has_edwards C f fn HC) _ _ _ _ _ _ _ _ _ RUN) as C2.
    split; eapply deep16; first [exact RUN|exact C2|lia].
  - fold F p in Va, Vb, Vzz, Vm. set (v := value F) in *. set (ka := carry F a) in *. set (kb := carry F b) in *. set (kc := carry F c) in *.
    set (E := (v x1 + v y1) * (v x1 + v y1) - v a - v b). set (G := v a + v b). set (Fq := G - 2 * v zz). set (H := v a - v b).
    set (F' := G - v c + 2 * fl_C F * kc).
    assert (D0 : denotes p (E * Fq) (G * H) (Fq * G) (E * H) S).
    { destruct RP as (RP1 & RP2 & RP3 & _).
      refine (double_formulas p PP (cv_d C) _ _ _ _ _ _ _ A S (conj RP1 (conj RP2 RP3)) OC SU _). cbv zeta. cbn [eX eY eZ eT coordinate]. fold F.
      assert (QF : cong p Fq (v a + v b - v zz * 2)) by (apply cong_eq; unfold Fq, G; ring).
      unfold E, G, H. unfold v in *. split; [|split; [|split]]; try (apply cong_mul; [|etransitivity; [exact QF|]]); try (apply cong_mul; [etransitivity; [exact QF|]|]); dens. }
    pose proof (off_point p PP E Fq G H (E + 2 * fl_C F * (ka + kb)) F' (H + 2 * fl_C F * kb) S D0) as OP.
    assert (VE : cong p (v e) (E + 2 * fl_C F * (ka + kb))).
    { etransitivity; [exact Ve|]. transitivity (v m - v a + 2 * fl_C F * ka - v b + 2 * fl_C F * kb).
      - apply cong_add; [|reflexivity]. apply cong_sub; [exact Vu|reflexivity].
      - unfold E. transitivity ((v x1 + v y1) * (v x1 + v y1) - v a + 2 * fl_C F * ka - v b + 2 * fl_C F * kb); [|apply cong_eq; ring].
        do 2 (apply cong_add; [|reflexivity]; apply cong_sub; [|reflexivity]). unfold v in *. dens. }
    assert (VG : cong p (v g) G) by exact Vg.
    assert (VF : cong p (v f) F').
    { etransitivity; [exact Vf|]. unfold F'. apply cong_add; [|reflexivity]. apply cong_sub; [exact VG|reflexivity]. }
    assert (RS : represents C (Ext (VArr x) (VArr y) (VArr z) (VArr t)) S <->
      denotes p ((E + 2 * fl_C F * (ka + kb)) * F') (G * (H + 2 * fl_C F * kb)) (F' * G) ((E + 2 * fl_C F * (ka + kb)) * (H + 2 * fl_C F * kb)) S).
    { apply denotes_cong; cbn [eX eY eZ eT coordinate]; fold F v.
      - etransitivity; [exact Vx|]. apply cong_mul; [exact VE|exact VF].
      - etransitivity; [exact Vy|]. apply cong_mul; [exact VG|exact Vh].
      - etransitivity; [exact Vz|]. apply cong_mul; [exact VF|exact VG].
      - etransitivity; [exact Vt3|]. apply cong_mul; [exact VE|exact Vh]. }
    rewrite RS, OP.
    assert (T : (cong p (E + 2 * fl_C F * (ka + kb)) E /\ cong p ((H + 2 * fl_C F * kb) * Fq) (H * F') /\ ~ cong p F' 0) <->
      (ka + kb = 0 /\ eqmod F ((v a - v b + 2 * fl_C F * kb) * (v a + v b - 2 * v zz)) ((v a - v b) * (v a + v b - v c + 2 * fl_C F * kc)) /\
       ~ eqmod F (v a + v b - v c + 2 * fl_C F * kc) 0)).
    { rewrite !em'. fold G H. fold F' Fq. split; intros (I1 & I2 & I3); (split; [|split; [exact I2|exact I3]]).
      - apply small_zero.
        + pose proof (carry_small a Pa) as SA. pose proof (carry_small b Pb) as SB. fold ka in SA. fold kb in SB. lia.
        + transitivity (E + 2 * fl_C F * (ka + kb) - E); [apply cong_eq; ring|]. rewrite I1. apply cong_eq. ring.
      - rewrite I1. apply cong_eq. ring. }
    rewrite T. split.
    + intros (I1 & I2 & I3). exists x1, y1, z1, t1, a, b, zz, c.
      split; [reflexivity|]. fold F. repeat (split; [assumption|]). exact I3.
    + intros (? & ? & ? & ? & a' & b' & zz' & c' & E1 & Ca' & Cb' & Cz' & Cc' & I).
      injection E1 as <- <- <- <-. fold F in Ca', Cb', Cz', Cc'.
      assert (UD : forall q o o', computes_unary F "F::square" "F::squared" q o -> computes_unary F "F::square" "F::squared" q o' -> o = o').
      { intros q o o' (R & _) (R' & _). specialize (R Debug). specialize (R' Debug). rewrite R in R'. now injection R' as ->. }
      pose proof (UD _ _ _ Ca Ca'). pose proof (UD _ _ _ Cb Cb'). pose proof (UD _ _ _ Cz Cz'). subst a' b' zz'.
      assert (c' = c) as ->. { destruct Cc as (R & _), Cc' as (R' & _). specialize (R Debug). specialize (R' Debug). rewrite R in R'. now injection R' as ->. }
      exact I.
Qed.

(** on the three curves the products are always right *)
Section Three.
Hypothesis N1 : F <> e222_117.
Hypothesis N2 : F <> e251_9.
Lemma always x y : produced F x -> produced F y -> right_product F x y.
Proof. intros X Y. destruct (mul_produced F x y HF N1 N2 X Y) as (o & Co & V & _). exists o. auto. Qed.
Lemma sum_products P Q : produced_point C P -> produced_point C Q -> sum_products_right C P Q.
Proof.
  intros (x1 & y1 & z1 & t1 & -> & PX1 & PY1 & PZ1 & PT1) (x2 & y2 & z2 & t2 & -> & PX2 & PY2 & PZ2 & PT2).
  assert (PD : produced F (d_words C)) by now apply d_produced.
  destruct (mul_r _ _ PX1 PX2) as (a & Ca & _ & Pa). destruct (mul_r _ _ PY1 PY2) as (b & Cb & _ & Pb).
  destruct (mul_r _ _ PT1 PD) as (td & Ct & _ & Pt). destruct (mul_r _ _ Pt PT2) as (c & Cc & _ & Pc).
  destruct (mul_r _ _ PZ1 PZ2) as (zz & Cz & _ & Pzz).
  destruct (add_r _ _ PX1 PY1) as (s1 & Cs1 & _ & Ps1 & _). destruct (add_r _ _ PX2 PY2) as (s2 & Cs2 & _ & Ps2 & _).
  destruct (mul_r _ _ Ps1 Ps2) as (m & Cm & _ & Pm).
  destruct (sub_off m a Pm (produced_any F a HF Pa)) as (u & Cu & _ & Pu & _). destruct (sub_off u b Pu (produced_any F b HF Pb)) as (e & Ce & _ & Pe & _).
  destruct (sub_off zz c Pzz (produced_any F c HF Pc)) as (f & Cf & _ & Pf & _). destruct (add_r zz c Pzz Pc) as (g & Cg & _ & Pg & _).
  destruct (sub_off b a Pb (produced_any F a HF Pa)) as (h & Ch & _ & Ph & _).
  exists x1, y1, z1, t1, x2, y2, z2, t2, (d_words C), td, a, b, c, zz, s1, s2, m, u, e, f, g, h.
  split; [reflexivity|]. split; [reflexivity|]. split; [destruct (d_right C HC) as (l & RD & _); rewrite <- (d_is C HC l RD); exact RD|].
  fold F. repeat (split; [assumption|]). repeat (split; [apply always; assumption|]). apply always; assumption.
Qed.
Lemma double_products P : produced_point C P -> double_products_right C P.
Proof.
  intros (x1 & y1 & z1 & t1 & -> & PX1 & PY1 & PZ1 & PT1).
  destruct (sq_of C HC _ PX1) as (a & _ & Ca & Pa & _). destruct (sq_of C HC _ PY1) as (b & _ & Cb & Pb & _).
  destruct (sq_of C HC _ PZ1) as (zz & _ & Cz & Pzz & _).
  destruct (dblw_ok F zz HF Pzz) as (Cc & _). set (c := dblw F zz) in *. destruct (small_runs C HC zz c Pzz Cc) as (_ & Ac).
  destruct (add_r _ _ PX1 PY1) as (s & Cs & _ & Ps & _). destruct (sq_of C HC s Ps) as (m & _ & Cm & Pm & _).
  destruct (sub_off m a Pm (produced_any F a HF Pa)) as (u & Cu & _ & Pu & _). destruct (sub_off u b Pu (produced_any F b HF Pb)) as (e & Ce & _ & Pe & _).
  destruct (add_r a b Pa Pb) as (g & Cg & _ & Pg & _). destruct (sub_off g c Pg Ac) as (f & Cf & _ & Pf & _).
  destruct (sub_off a b Pa (produced_any F b HF Pb)) as (h & Ch & _ & Ph & _).
  exists x1, y1, z1, t1, a, b, zz, c, s, m, u, e, f, g, h. split; [reflexivity|]. fold F. repeat (split; [assumption|]).
  repeat (split; [apply always; assumption|]). apply always; assumption.
Qed.
End Three.
(** coordinates that are not negative have products without negative carries *)
Lemma condition_canonical P Q : canonical_point C P -> canonical_point C Q ->
  (sum_condition C P Q <->
   exists x1 y1 z1 t1 x2 y2 z2 t2 dv td a b c zz,
    P = Ext (VArr x1) (VArr y1) (VArr z1) (VArr t1) /\ Q = Ext (VArr x2) (VArr y2) (VArr z2) (VArr t2) /\
    point_runs C "C::d_val" [] [VArr dv] [] /\
    computes F "mul" x1 x2 a /\ computes F "mul" y1 y2 b /\ computes F "mul" t1 dv td /\ computes F "mul" td t2 c /\ computes F "mul" z1 z2 zz /\
    carry F a = 0 /\ carry F b = 0 /\ (carry F c = 0 \/ eqmod F (value F a) (value F b)) /\
    ~ eqmod F (value F zz - value F c + 2 * fl_C F * carry F c) 0).
Proof.
  intros CP CQ. pose proof CP as CP'. pose proof CQ as CQ'.
  apply (canonical_produced C HC) in CP', CQ'. destruct CP as (x1 & y1 & z1 & t1 & -> & (PX1 & _) & (PY1 & _) & _). destruct CQ as (x2 & y2 & z2 & t2 & -> & (PX2 & _) & (PY2 & _) & _).
  destruct CP' as (? & ? & ? & ? & E1 & _ & _ & _ & T1). injection E1 as <- <- <- <-. destruct CQ' as (? & ? & ? & ? & E1 & _ & _ & _ & T2). injection E1 as <- <- <- <-.
  assert (PD : produced F (d_words C)) by now apply d_produced.
  split; intros (? & ? & ? & ? & ? & ? & ? & ? & dv & td & a & b & c & zz & E1 & E2 & RD & Ca & Cb & Ct & Cc & Cz & S);
    injection E1 as <- <- <- <-; injection E2 as <- <- <- <-; exists x1, y1, z1, t1, x2, y2, z2, t2, dv, td, a, b, c, zz;
    (split; [reflexivity|]); (split; [reflexivity|]); (repeat (split; [assumption|])); fold F in S.
  - destruct S as (S & R & N). fold F in Ca, Cb, Ct, Cc.
    assert (NN : forall q r o, tight F q -> tight F r -> computes F "mul" q r o -> 0 <= carry F o).
    { intros q r o Tq Tr Co. destruct (mul_is C HC q r o (ms_tight C HC q r Tq Tr) Co) as (_ & _ & _ & L).
      destruct (L (loose_tight C HC q Tq) (loose_tight C HC r Tr)) as (_ & _ & T). apply Z.div_pos; [exact (proj1 T)|]. pose proof (B_pos F HF). unfold B in *. lia. }
    pose proof (NN _ _ _ PX1 PX2 Ca) as Ka. pose proof (NN _ _ _ PY1 PY2 Cb) as Kb.
    assert (Za : carry F a = 0) by lia. assert (Zb : carry F b = 0) by lia. split; [exact Za|]. split; [exact Zb|]. split; [|exact N].
    rewrite Za in R. apply em' in R. apply (d_is C HC) in RD. subst dv.
    destruct (mul_r _ _ T1 PD) as (td' & K1 & _ & Pt). destruct (computes_det _ _ _ _ _ Ct K1). clear K1.
    destruct (mul_r _ _ Pt T2) as (c' & K1 & _ & Pc). destruct (computes_det _ _ _ _ _ Cc K1). clear K1. pose proof (carry_small c Pc) as Sc.
    assert (D : (p | carry F c * (value F b - value F a))). { destruct R as (k & R). exists (- k). lia. }
    destruct (prime_mult p PP _ _ D) as [D'|D'].
    + left. apply (small_zero (carry F c)); [lia|]. destruct D' as (k & ->). exists (2 * fl_C F * k). ring.
    + right. apply em'. destruct D' as (k & D'). exists (- k). lia.
  - destruct S as (Za & Zb & R & N). split; [fold F; lia|]. split; [|exact N]. fold F. rewrite Za. apply em'. destruct R as [->|R].
    + apply cong_eq; ring.
    + apply em' in R. destruct R as (k & R). exists (carry F c * k). lia.
Qed.
End Shipped.

Lemma three C : In C [E_382; Curve41417; E_521] -> In C all_curves /\ cv_fld C <> e222_117 /\ cv_fld C <> e251_9.
Proof.
  intros H. split; [cbn in *; tauto|]. repeat (destruct H as [<-|H]; [split; intros E; apply (f_equal fl_C) in E; discriminate E|]). destruct H.
Qed.
Lemma add_exactly C : In C [E_382; Curve41417; E_521] -> forall P Q A B S, produced_point C P -> produced_point C Q ->
  represents C P A -> represents C Q B -> edwards_sum (cv_p C) (cv_d C) A B S ->
  exists R, curve_sum C P Q R /\ produced_point C R /\ (represents C R S <-> sum_condition C P Q).
Proof. intros H. destruct (three C H) as (HC & N1 & N2). intros P Q A B S PP PQ RP RQ SU. exact (add_exact C HC P Q A B S PP PQ RP RQ SU (sum_products C HC N1 N2 P Q PP PQ)). Qed.
Lemma double_exactly C : In C [E_382; Curve41417; E_521] -> forall P A S, produced_point C P ->
  represents C P A -> on_curve (cv_p C) (cv_d C) A -> edwards_sum (cv_p C) (cv_d C) A A S ->
  exists R, curve_double C P R /\ produced_point C R /\ (represents C R S <-> double_condition C P).
Proof. intros H. destruct (three C H) as (HC & N1 & N2). intros P A S PP RP OC SU. exact (double_exact C HC P A S PP RP OC SU (double_products C HC N1 N2 P PP)). Qed.

Lemma products_right C : In C [E_382; Curve41417; E_521] -> forall P Q, produced_point C P -> produced_point C Q ->
  sum_products_right C P Q /\ double_products_right C P.
Proof. intros H P Q PP PQ. destruct (three C H) as (HC & N1 & N2). split; [now apply sum_products|now apply double_products]. Qed.

(** ** Cases *)
Definition rightb (F : fld) (x y : list Z) : bool := (value F (mulw F x y) - value F x * value F y) mod modulus F =? 0.
Lemma rightb_yes F x y : In F all_fields -> produced F x -> produced F y -> rightb F x y = true -> right_product F x y.
Proof.
  intros HF X Y K. exists (mulw F x y). split; [apply mulw_ok; auto using produced_wide|]. apply eqmod_cong; [exact HF|].
  apply Z.eqb_eq in K. apply Z.mod_divide in K; [exact K|]. apply (all_chk (fun F => negb (modulus F =? 0)) ltac:(vm_compute; reflexivity)) in HF.
  now apply negb_true_iff, Z.eqb_neq in HF.
Qed.
Definition sum_rightb (C : crv) (x1 y1 z1 t1 x2 y2 z2 t2 : list Z) : bool :=
  let F := cv_fld C in let k := rightb F in let dv := d_words C in let td := mulw F t1 dv in
  let a := mulw F x1 x2 in let b := mulw F y1 y2 in let c := mulw F td t2 in let zz := mulw F z1 z2 in
  let s1 := addw F x1 y1 in let s2 := addw F x2 y2 in
  let e := subw F (subw F (mulw F s1 s2) a) b in let f := subw F zz c in let g := addw F zz c in let h := subw F b a in
  forallb (fun q => k (fst q) (snd q)) [(x1, x2); (y1, y2); (t1, dv); (td, t2); (z1, z2); (s1, s2); (e, f); (g, h); (f, g); (e, h)].
Definition double_rightb (C : crv) (x y z : list Z) : bool :=
  let F := cv_fld C in let k := rightb F in
  let a := sqw F x in let b := sqw F y in let c := dblw F (sqw F z) in
  let e := subw F (subw F (sqw F (addw F x y)) a) b in let g := addw F a b in let f := subw F g c in let h := subw F a b in
  forallb (fun q => k (fst q) (snd q)) [(e, f); (g, h); (f, g); (e, h)].
Section Cases.
Variable C : crv.
Hypothesis HC : In C all_curves.
Let F := cv_fld C.
Let HF : In F all_fields := curve_field C HC.
Let pw x : produced F x -> wide F x := produced_wide F x HF.
Let pa x : produced F x -> any_rep F x := produced_any F x HF.
Let wa x : wide F x -> any_rep F x := wide_any F x HF.
Lemma sum_rightb_yes P Q x1 y1 z1 t1 x2 y2 z2 t2 : P = Ext (VArr x1) (VArr y1) (VArr z1) (VArr t1) -> Q = Ext (VArr x2) (VArr y2) (VArr z2) (VArr t2) ->
  produced_point C P -> produced_point C Q -> sum_rightb C x1 y1 z1 t1 x2 y2 z2 t2 = true -> sum_products_right C P Q.
Proof.
  intros -> -> (? & ? & ? & ? & E & X1 & Y1 & Z1 & T1) (? & ? & ? & ? & E' & X2 & Y2 & Z2 & T2) K. injection E as <- <- <- <-. injection E' as <- <- <- <-.
  unfold sum_rightb in K. rewrite forallb_forall in K. pose proof (d_produced C HC) as PD.
  destruct (mulw_ok F t1 (d_words C) HF (pw _ T1) (pw _ PD)) as (Rt & Pt). destruct (mulw_ok F _ t2 HF (pw _ Pt) (pw _ T2)) as (Rc & Pc).
  destruct (mulw_ok F x1 x2 HF (pw _ X1) (pw _ X2)) as (Ra & Pa). destruct (mulw_ok F y1 y2 HF (pw _ Y1) (pw _ Y2)) as (Rb & Pb).
  destruct (mulw_ok F z1 z2 HF (pw _ Z1) (pw _ Z2)) as (Rz & Pz).
  destruct (addw_ok F x1 y1 HF (pa _ X1) (pa _ Y1)) as (R1 & P1). destruct (addw_ok F x2 y2 HF (pa _ X2) (pa _ Y2)) as (R2 & P2).
  destruct (mulw_ok F _ _ HF (pw _ P1) (pw _ P2)) as (Rm & Pm). destruct (subw_ok F _ _ HF (pa _ Pm) (pa _ Pa)) as (Ru & Pu).
  destruct (subw_ok F _ _ HF (pa _ Pu) (pa _ Pb)) as (Re & Pe). destruct (subw_ok F _ _ HF (pa _ Pz) (pa _ Pc)) as (Rf & Pf).
  destruct (addw_ok F _ _ HF (pa _ Pz) (pa _ Pc)) as (Rg & Pg). destruct (subw_ok F _ _ HF (pa _ Pb) (pa _ Pa)) as (Rh & Ph).
  assert (KK : forall q, In q [(x1, x2); (y1, y2); (t1, d_words C); (mulw F t1 (d_words C), t2); (z1, z2); (addw F x1 y1, addw F x2 y2);
     (subw F (subw F (mulw F (addw F x1 y1) (addw F x2 y2)) (mulw F x1 x2)) (mulw F y1 y2), subw F (mulw F z1 z2) (mulw F (mulw F t1 (d_words C)) t2));
     (addw F (mulw F z1 z2) (mulw F (mulw F t1 (d_words C)) t2), subw F (mulw F y1 y2) (mulw F x1 x2));
     (subw F (mulw F z1 z2) (mulw F (mulw F t1 (d_words C)) t2), addw F (mulw F z1 z2) (mulw F (mulw F t1 (d_words C)) t2));
     (subw F (subw F (mulw F (addw F x1 y1) (addw F x2 y2)) (mulw F x1 x2)) (mulw F y1 y2), subw F (mulw F y1 y2) (mulw F x1 x2))] ->
     produced F (fst q) -> produced F (snd q) -> right_product F (fst q) (snd q)).
  { intros q I A B. apply rightb_yes; auto. }
  clear K.
  exists x1, y1, z1, t1, x2, y2, z2, t2, (d_words C). do 13 eexists. split; [reflexivity|]. split; [reflexivity|]. split; [exact (d_point C HC)|].
  split; [exact Ra|]. split; [exact Rb|]. split; [exact Rt|]. split; [exact Rc|]. split; [exact Rz|]. split; [exact R1|]. split; [exact R2|]. split; [exact Rm|].
  split; [exact Ru|]. split; [exact Re|]. split; [exact Rf|]. split; [exact Rg|]. split; [exact Rh|].
  repeat apply conj; (match goal with |- right_product _ ?u ?v => apply (KK (u, v)) end; [cbn [In]; tauto|assumption|assumption]).
Qed.
Lemma double_rightb_yes P x y z t : P = Ext (VArr x) (VArr y) (VArr z) (VArr t) ->
  produced_point C P -> double_rightb C x y z = true -> double_products_right C P.
Proof.
  intros -> (? & ? & ? & ? & E & X1 & Y1 & Z1 & T1) K. injection E as <- <- <- <-.
  unfold double_rightb in K. rewrite forallb_forall in K.
  destruct (sqw_ok F x HF X1) as (Ra & Pa). destruct (sqw_ok F y HF Y1) as (Rb & Pb). destruct (sqw_ok F z HF Z1) as (Rz & Pz).
  destruct (dblw_ok F _ HF Pz) as (Rc & Pc). destruct (addw_ok F x y HF (pa _ X1) (pa _ Y1)) as (Rs & Ps). destruct (sqw_ok F _ HF Ps) as (Rm & Pm).
  destruct (subw_ok F _ _ HF (pa _ Pm) (pa _ Pa)) as (Ru & Pu). destruct (subw_ok F _ _ HF (pa _ Pu) (pa _ Pb)) as (Re & Pe).
  destruct (addw_ok F _ _ HF (pa _ Pa) (pa _ Pb)) as (Rg & Pg). destruct (subw_ok F _ _ HF (pa _ Pg) (wa _ Pc)) as (Rf & Pf).
  destruct (subw_ok F _ _ HF (pa _ Pa) (pa _ Pb)) as (Rh & Ph).
  exists x, y, z, t. do 11 eexists. split; [reflexivity|].
  split; [exact Ra|]. split; [exact Rb|]. split; [exact Rz|]. split; [exact Rc|]. split; [exact Rs|]. split; [exact Rm|]. split; [exact Ru|]. split; [exact Re|].
  split; [exact Rg|]. split; [exact Rf|]. split; [exact Rh|].
  repeat apply conj; (apply rightb_yes; [assumption|assumption|assumption|]);
    [apply (K (_, _)); left; reflexivity|apply (K (_, _)); right; left; reflexivity|apply (K (_, _)); right; right; left; reflexivity|apply (K (_, _)); right; right; right; left; reflexivity].
Qed.
End Cases.
Lemma two_cases : sum_products_right E_222 (scaled E_222 wb1 lb1) (scaled E_222 wb2 lb2) /\ double_products_right E_222 (scaled E_222 we le).
Proof.
  assert (HC : In E_222 all_curves) by (cbn; tauto). destruct add_two_case as (C1 & C2 & _). destruct double_two_case as (C3 & _).
  apply (canonical_produced _ HC) in C1, C2. split.
  - eapply (sum_rightb_yes E_222 HC); [reflexivity|reflexivity|exact C1|exact C2|vm_compute; reflexivity].
  - eapply (double_rightb_yes E_222 HC); [reflexivity|exact C3|vm_compute; reflexivity].
Qed.
