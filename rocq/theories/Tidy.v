(** With every result normalised the field code of four of the shipped curves is
    lawful, and so their curve code is right (C60). *)
From Coq Require Import ZArith Znumtheory List String Lia Bool.
From Verif Require Import Lang Quick Poly Kernel Fields Kfacts Ops Words Codec Normalize Methods Surface Forms Power Arith Encoding Observe NumTheory Safe Machine History Laws Primes Roots Zp
  Refute EdwardsSpec EdwardsAlg Edwards Lawful Ladder CurveSpec Curves CurveRefute Guarded CheckedSpec Trace Modes SmallMul Doubling Checked GroupSpec GroupLaw Group TidySpec.
From Verif Require Src_edwards Src_curves.
Import ListNotations.
Local Open Scope string_scope.
Local Open Scope Z_scope.
Local Open Scope list_scope.

Section Tidy.
Variable C : crv.
Hypothesis HC : In C all_curves.
Let F := cv_fld C.
Let HF : In F all_fields := curve_field C HC.
Let p := cv_p C.
Let v := coordinate C.
Let T := cv_tbl C.

Lemma call_is n f args rets outs md : (n <= 8)%nat -> has f F = true -> runsd n F f args rets outs -> rust_call md T f args = Ok (rets, outs).
Proof. intros N H R. exact (up C HC n f args rets outs N H R (md, 8%nat)). Qed.
Ltac hs := apply has_all; [exact HC|vm_compute; reflexivity].
Lemma tidied_op md f args o outs n : existsb (String.eqb f) tidy_ops = true -> (n <= 8)%nat -> has f F = true ->
  runsd n F f args [VArr o] outs -> normal F o -> tidied md C f args = Ok ([VArr (canon F o)], outs).
Proof.
  intros I L H R N. unfold tidied. fold T. rewrite (call_is n _ _ _ _ md L H R). cbn [bind fst snd]. rewrite I.
  rewrite (call_is 4 "F::normalize" [VArr o] [] [VArr (canon F o)] md); [reflexivity|lia|hs|now apply normalize_normal].
Qed.
Lemma tidied_same md f args r : existsb (String.eqb f) tidy_ops = false -> rust_call md T f args = Ok r -> tidied md C f args = Ok r.
Proof. intros I R. unfold tidied. fold T. rewrite R. cbn [bind]. now rewrite I. Qed.
Lemma canon_right o z : eqmod F (value F o) z -> canonical_value C (VArr (canon F o)) /\ eqp p (v (VArr (canon F o))) z.
Proof. intros E. split; [eexists; split; [reflexivity|now apply canon_canonical]|]. exact (canon_mod F o z HF E). Qed.
Lemma can_any l : canonical F l -> any_rep F l.
Proof. intros K. apply (canonical_normal F l HF K). Qed.
Lemma small_normal x : canonical F x -> exists o, runsd 1 F "F::small_mul_assign" [VArr x; VInt 2] [] [VArr o; VInt 2] /\ normal F o /\ value F o = value F x * 2.
Proof.
  intros X. assert (S : 2 ^ fl_tb F * 2 ^ 1 <= 2 ^ 63).
  { apply (all_chk (fun F => 2 ^ fl_tb F * 2 ^ 1 <=? 2 ^ 63)) in HF as H2; [|vm_compute; reflexivity]. now apply Z.leb_le in H2. }
  destruct (power_multiple F x 1 HF (proj1 X) ltac:(lia) S) as (o & (R' & _) & V & Ro). change (2 ^ 1) with 2 in R', V.
  destruct (smul4_runs F x 2 HF (History.tight_produced F x HF (proj1 X)) ltac:(lia)) as (o1 & R & _).
  assert (o1 = o) as -> by (specialize (R Debug 16%nat ltac:(lia)); specialize (R' Debug); unfold rust_call in R'; cbn [append] in R'; rewrite R in R'; now injection R' as ->).
  exists o. split; [exact R|]. split; [|exact V].
  destruct (rep_value F _ _ x HF (proj1 X)) as (E & Bd). destruct (rep_value F _ _ o HF Ro) as (E' & Bd'). pose proof (lowmod_pos F HF) as LM.
  assert (0 <= top F o). { destruct X as ((_ & _ & T0) & _). rewrite V, E in E'. nia. }
  destruct Ro as (R1 & R2 & R3). apply (top_normal F 0 (2 ^ 63 - 1)); [exact HF|split; [exact R1|split; [exact R2|lia]]|pose proof (B_pos F HF); lia|lia].
Qed.

Lemma det1 n f args o o' rest : (n <= 16)%nat -> runsd n F f args [] (VArr o :: rest) -> runs F f args [] (VArr o' :: rest) -> o = o'.
Proof. intros L R R'. specialize (R Debug 16%nat L). specialize (R' Debug). unfold rust_call in R'. rewrite R in R'. now injection R' as ->. Qed.
Lemma can_wide x : canonical F x -> wide F x.
Proof. intros (X & _). pose proof (B_pos F HF) as BP. pose proof (W_big F HF). unfold B in BP. apply (wide_intro F _ _ _ X); lia. Qed.
Ltac both md R S V E := eexists (VArr (canon F _)), _, _; split; [eapply (tidied_op md); [reflexivity| |hs| |]; [|exact R|]; [lia|eapply sh_normal; [exact HF| |exact S]; reflexivity]|apply canon_right; exact V].
Lemma tidied_lawful md : lawful p (cv_d C) (nbits F) (canonical_value C) (canonical_value C) v (mask_val C) (tidied md C).
Proof.
  destruct (const_body F HF) as (B1 & B2 & _ & _ & B5 & _). destruct (lits_ok F HF) as (L0 & L1 & _).
  assert (W : forall z, 0 <= z < p -> canonical_value C (VArr (to_words F z)) /\ eqp p (v (VArr (to_words F z))) z).
  { intros z Z. destruct (words_right C HC z) as (K & V). fold p F in K, V. rewrite Z.mod_small in K, V by lia. split; [eexists; split; [reflexivity|exact K]|exact V]. }
  pose proof (p_pos C HC) as PP. fold p in PP.
  constructor.
  - intros a b (x & -> & X) (y & -> & Y). destruct (op_tracks F HF Mul Canonical Canonical Loose x y) as (o & [R' _] & S & V); auto.
    { cbn [op_shape]. destruct (is251 F); reflexivity. }
    destruct (mul_runs F x y HF (can_wide x X) (can_wide y Y)) as (o' & R & _). assert (o' = o) as -> by (apply (det1 1 _ _ _ _ _ ltac:(lia) R R')).
    apply mul_val in R; [|exact HF]. both md R S V E.
  - intros a b (x & -> & X) (y & -> & Y). destruct (op_tracks F HF Add Canonical Canonical Summand x y) as (o & [R' _] & S & V); auto.
    destruct (add_ok F x y HF (can_any x X) (can_any y Y)) as (o' & R & _). assert (o' = o) as -> by (apply (det1 1 _ _ _ _ _ ltac:(lia) R R')).
    apply add_val in R; [|exact HF]. both md R S V E.
  - intros a b (x & -> & X) (y & -> & Y). destruct (op_tracks F HF Sub Canonical Canonical Difference x y) as (o & [R' _] & S & V); auto.
    destruct (sub_ok F x y HF (can_any x X) (can_any y Y)) as (o' & R & _). assert (o' = o) as -> by (apply (det1 1 _ _ _ _ _ ltac:(lia) R R')).
    apply sub_val in R; [|exact HF]. both md R S V E.
  - intros a (x & -> & X). destruct (un_tracks F HF Square Canonical Loose x) as (o & [R' _] & S & V); auto.
    destruct (square_runs F x HF (can_wide x X)) as (o' & R & _). assert (o' = o) as -> by (apply (det1 1 _ _ _ _ _ ltac:(lia) R R')).
    apply squared_val in R; [|exact HF]. exists (VArr (canon F o)), (VArr x).
    split; [apply (tidied_op md _ _ _ _ 3); [reflexivity|lia|hs|exact R|eapply sh_normal; [exact HF| |exact S]; reflexivity]|apply canon_right; exact V].
  - intros a (x & -> & X). destruct (small_normal x X) as (o & R & N & V). apply small_val in R; [|exact HF].
    exists (VArr (canon F o)), (VArr x), (VInt 2). split; [apply (tidied_op md _ _ _ _ 3); [reflexivity|lia|hs|exact R|exact N]|apply canon_right; rewrite V; reflexivity].
  - exists (VArr (to_words F 0)). split; [|apply W; lia]. apply tidied_same; [reflexivity|]. apply (call_is 1); [lia|hs|]. rewrite <- L0. now apply const_runs.
  - exists (VArr (to_words F 1)). split; [|apply W; lia]. apply tidied_same; [reflexivity|]. apply (call_is 1); [lia|hs|]. rewrite <- L1. now apply const_runs.
  - destruct (d_right C HC) as (l & R & K & V & _). exists (VArr l). split; [apply tidied_same; [reflexivity|exact (R md)]|].
    split; [eexists; split; [reflexivity|exact K]|exact V].
  - intros a (x & -> & X). exists (VArr (canon F x)). split; [apply tidied_same; [reflexivity|]; apply (call_is 4); [lia|hs|now apply normalize_normal, canonical_normal]|].
    destruct (canon_right x (value F x) eq_refl) as (K & V). split; [exact K|]. split; [exact K|exact V].
  - split; [apply tidied_same; [reflexivity|]; apply (call_is 1); [lia|hs|]; now apply int_runs|].
    assert (K : (0 <? nbits F) && (nbits F <? 2 ^ 31) && (modulus F <=? 2 ^ nbits F) = true) by (apply (all_chk (fun F => (0 <? nbits F) && (nbits F <? 2 ^ 31) && (modulus F <=? 2 ^ nbits F))); [vm_compute; reflexivity|exact HF]).
    rewrite !andb_true_iff in K. destruct K as ((K1 & K2) & K3). apply Z.leb_le in K3. split; [lia|exact K3].
  - intros a i _ (x & -> & X) I. pose proof (bit_normalized_claim F x i HF X ltac:(lia)) as Q. destruct (Z.ltb_spec i (fl_w F * Z.of_nat (fl_n F))) as [B|B].
    2:{ pose proof (bits_enough F HF). lia. }
    exists (VArr x), (VInt i). apply tidied_same; [reflexivity|].
    unfold rust_call, T. rewrite (field_call C); [|exact HC|intros N; pose proof (has_all C HC "F::bit_normalized" ltac:(vm_compute; reflexivity)) as H'; unfold has in H'; rewrite N in H'; discriminate H'].
    change (v (VArr x)) with (value F x). replace (value F x mod p) with (value F x) by (symmetry; apply (canonical_mod F x HF X)). exact (Q md).
  - intros b. exists (VInt (b2z b)). apply tidied_same; [reflexivity|]. replace (if b then 1 else 0) with (b2z b) by (destruct b; reflexivity).
    apply (call_is 1); [lia|hs|]. apply filled_runs; cbn; auto.
  - intros b x0 y0 (x & -> & X) (y & -> & Y). unfold mask_val.
    assert (Lx : List.length x = fl_n F) by apply X. assert (Ly : List.length y = fl_n F) by apply Y.
    pose proof (repeat_length (mask_of b) (fl_n F)) as M1. pose proof (repeat_length (mask_of (negb b)) (fl_n F)) as M2.
    pose proof (repeat_length 0 (fl_n F)) as M0.
    pose proof (bitand_words F x _ HF Lx M1) as R1. pose proof (bitand_words F y _ HF Ly M2) as R2. rewrite zipw_mask in R1, R2 by auto.
    exists (VArr (if b then x else repeat 0 (fl_n F))), (VArr (if negb b then y else repeat 0 (fl_n F))), (VArr (if b then x else y)).
    exists (VArr (repeat (mask_of b) (fl_n F))), (VArr (repeat (mask_of (negb b)) (fl_n F))), (VArr (if negb b then y else repeat 0 (fl_n F))).
    split; [apply tidied_same; [reflexivity|]; apply (call_is 1); [lia|hs|exact R1]|].
    split; [apply tidied_same; [reflexivity|]; apply (call_is 1); [lia|hs|exact R2]|]. split.
    + apply tidied_same; [reflexivity|]. apply (call_is 1); [lia|hs|]. destruct b; cbn [negb].
      * rewrite <- (zipw_or_0_r (fl_n F) x Lx) at 2. apply bitor_words; auto.
      * rewrite <- (zipw_or_0_l (fl_n F) y Ly) at 2. apply bitor_words; auto.
    + split; [destruct b; eexists; split; eauto|]. destruct b; reflexivity.
Qed.

(** ** Both builds *)
Lemma tidied_modes f vs : below (tidied Debug C f vs) (tidied Release C f vs).
Proof.
  intros r E. unfold tidied in *. fold T in E |- *.
  assert (M : forall f vs r, rust_call Debug T f vs = Ok r -> rust_call Release T f vs = Ok r) by (intros g ws q K; destruct (checks_only_panic T g ws) as [X|X]; congruence).
  destruct (rust_call Debug T f vs) as [r0| |] eqn:D; try discriminate E. rewrite (M _ _ _ D). cbn [bind] in *.
  destruct (existsb (String.eqb f) tidy_ops); [|exact E]. destruct (fst r0) as [|x [|]]; try exact E.
  destruct (rust_call Debug T "F::normalize" [x]) as [n| |] eqn:N; try discriminate E. rewrite (M _ _ _ N). exact E.
Qed.
Lemma modes_call md f vs r : curve_call md (tidied Debug C) f vs = Ok r -> forall md', curve_call md (tidied md' C) f vs = Ok r.
Proof. intros E md'. destruct md'; [exact E|]. unfold curve_call in *. exact (call_below _ _ _ _ _ tidied_modes f vs r E). Qed.
Lemma modes_sum P Q R : sum_calls (tidied Debug C) P Q R -> tidy_sum C P Q R.
Proof. intros S md' md. destruct (S md) as (S1 & S2 & S3 & S4). repeat split; now apply modes_call. Qed.
Lemma modes_double P R : double_calls (tidied Debug C) P R -> tidy_double C P R.
Proof. intros S md' md. destruct (S md) as (S1 & S2). split; now apply modes_call. Qed.

(** ** The claims *)
Let PP : prime p := prime_modulus F HF.
Lemma ok_point P : canonical_point C P <-> all_ok (canonical_value C) P.
Proof.
  split.
  - intros (x & y & z & t & -> & X & Y & Z & W). unfold all_ok. cbn [eX eY eZ eT]. repeat split; eexists; split; eauto.
  - destruct P as [a b c e]. unfold all_ok. cbn [eX eY eZ eT]. intros ((x & -> & X) & (y & -> & Y) & (z & -> & Z) & (t & -> & W)). exists x, y, z, t. auto 10.
Qed.
Lemma d_non_square : non_square p (cv_d C).
Proof. destruct (d_right C HC) as (_ & _ & _ & _ & N & _). exact N. Qed.
Lemma tidy_sum_right P Q A B : canonical_point C P -> canonical_point C Q -> represents C P A -> represents C Q B -> on_curve p (cv_d C) A -> on_curve p (cv_d C) B ->
  exists R S, tidy_sum C P Q R /\ canonical_point C R /\ represents C R S /\ edwards_sum p (cv_d C) A B S /\ on_curve p (cv_d C) S.
Proof.
  intros OP OQ RP RQ CA CB. apply ok_point in OP, OQ.
  destruct (add_complete _ _ _ _ _ _ _ _ PP (tidied_lawful Debug) P Q A B d_non_square OP OQ CA CB RP RQ) as (R & S & K & O & V & E & N).
  exists R, S. split; [now apply modes_sum|]. split; [now apply ok_point|auto].
Qed.
Lemma tidy_double_right P A : canonical_point C P -> represents C P A -> on_curve p (cv_d C) A ->
  exists R S, tidy_double C P R /\ canonical_point C R /\ represents C R S /\ edwards_sum p (cv_d C) A A S /\ on_curve p (cv_d C) S.
Proof.
  intros OP RP CA. apply ok_point in OP. pose proof OP as (O1 & O2 & O3 & _).
  assert (RX : stands_for_xyz p v P A) by (destruct RP as (R1 & R2 & R3 & _); split; [exact R1|split; [exact R2|exact R3]]).
  destruct (double_complete _ _ _ _ _ _ _ _ PP (tidied_lawful Debug) P A d_non_square O1 O2 O3 CA RX) as (R & S & K & O & V & E & N).
  exists R, S. split; [now apply modes_double|]. split; [now apply ok_point|auto].
Qed.
Lemma built_modes P n R : built (tidied Debug C) P n R <-> tidy_built C P n R.
Proof.
  split.
  - induction 1 as [|n m R S U H1 I1 H2 I2 K|n R U H1 I1 K]; [constructor|econstructor; [exact I1|exact I2|now apply modes_sum]|econstructor; [exact I1|now apply modes_double]].
  - induction 1 as [|n m R S U H1 I1 H2 I2 K|n R U H1 I1 K]; [constructor|econstructor; [exact I1|exact I2|exact (K Debug)]|econstructor; [exact I1|exact (K Debug)]].
Qed.
Lemma tidy_multiples P A : canonical_point C P -> represents C P A -> on_curve p (cv_d C) A ->
  (forall n, (0 < n)%nat -> exists R, tidy_built C P n R) /\
  (forall n R, tidy_built C P n R -> canonical_point C R /\ exists S, multiple p (cv_d C) A n S /\ represents C R S).
Proof.
  intros OP RP CA. apply ok_point in OP. split.
  - intros n N. destruct (built_every _ _ _ _ _ _ _ _ PP (tidied_lawful Debug) d_non_square P A n N OP CA RP) as (R & H). exists R. now apply built_modes.
  - intros n R H. apply built_modes in H. destruct (built_right _ _ _ _ _ _ _ _ PP (tidied_lawful Debug) d_non_square P A n R OP CA RP H) as (O & S & M & V).
    split; [now apply ok_point|]. exists S. auto.
Qed.
Lemma tidy_scalar_mult_exact P n : canonical_point C P -> canonical_value C n ->
  exists R, tidy_scalar_mult C P n R n /\ canonical_point C R /\
    residues p v R = quad_ladder p (cv_d C) (Z.testbit (v n)) (Z.to_nat (nbits F)) (0, 1, 1, 1) (residues p v P).
Proof.
  intros OP ON. apply ok_point in OP. destruct (scalar_mult_exact _ _ _ _ _ _ _ _ PP (tidied_lawful Debug) P n OP ON) as (R & n' & K & O & N1 & _ & V & E).
  pose proof (p_pos C HC) as P1. fold p in P1. rewrite !Z.mod_small with (a := 1), Z.mod_0_l in E by lia. destruct ON as (l & -> & L). destruct N1 as (l' & -> & L').
  assert (EL : value F l mod p = value F l) by (apply (canonical_mod F l HF L)).
  assert (l' = l) as ->.
  { rewrite <- (canon_id F l HF L), <- (canon_id F l' HF L'). unfold canon. f_equal. exact V. }
  exists R. split; [intros md' md; exact (modes_call md _ _ _ (K md) md')|]. split; [now apply ok_point|]. change (v (VArr l)) with (value F l) in *. rewrite EL in E. exact E.
Qed.
End Tidy.

Lemma tidy_case c : In c edwards_published -> let C := ec_curve c in
  In C all_curves /\ exists t, let P := Ext (VArr (ec_x c)) (VArr (ec_y c)) (VArr (to_words (cv_fld C) 1)) (VArr t) in
    canonical_point C P /\ represents C P (ec_point c) /\ on_curve (cv_p C) (cv_d C) (ec_point c).
Proof.
  intros I. destruct (edwards_constants_right c I) as (X & Y & _ & _ & _ & _ & O & _). cbv zeta in *.
  assert (HC : In (ec_curve c) all_curves) by (repeat (destruct I as [<-|I]; [cbn; tauto|]); destruct I).
  split; [exact HC|]. pose proof (curve_field _ HC) as HF. set (F := cv_fld (ec_curve c)) in *.
  exists (to_words F ((value F (ec_x c) * value F (ec_y c)) mod modulus F)).
  destruct (words_right _ HC 1) as (K1 & V1). destruct (words_right _ HC (value F (ec_x c) * value F (ec_y c))) as (K2 & V2). pose proof (p_pos _ HC) as PP.
  rewrite (Z.mod_small 1) in K1, V1 by lia. fold F in K1, V1, K2, V2, PP. change (cv_p (ec_curve c)) with (modulus F) in *.
  split; [eexists _, _, _, _; split; [reflexivity|]; split; [exact X|split; [exact Y|split; [exact K1|exact K2]]]|]. split; [|exact O].
  assert (E1 : value F (to_words F 1) = 1) by now apply to_words_value.
  unfold represents, stands_for, denotes, ec_point, coordinate. cbn [eX eY eZ eT fst snd]. fold F. change (cv_p (ec_curve c)) with (modulus F). rewrite E1, !Z.mul_1_r.
  split; [unfold eqp; rewrite Z.mod_small, Z.mod_0_l by lia; lia|]. split; [reflexivity|]. split; [reflexivity|exact V2].
Qed.
