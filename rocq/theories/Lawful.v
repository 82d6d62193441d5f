(** The curve properties over any lawful field: from the symbolic runs of
    Edwards.v and the algebra of EdwardsAlg.v. *)
From Coq Require Import ZArith Znumtheory List String Lia Bool.
From Verif Require Import Lang NumTheory Zp EdwardsSpec EdwardsAlg Src_edwards Edwards.
Import ListNotations.
Local Open Scope string_scope.
Local Open Scope Z_scope.
Local Open Scope list_scope.

Section L.
Variables (p d nbits : Z) (ok canon : val -> Prop) (den : val -> Z) (mask : bool -> val).
Variable base : string -> list val -> res (list val * list val).
Hypothesis PR : prime p.
Hypothesis LW : lawful p d nbits ok canon den mask base.

Lemma lookup_id : forall f fn, lookup f Src_edwards.table = Some fn -> lookup f Src_edwards.table = Some fn.
Proof. auto. Qed.
Lemma at_base i f vs : lookup f Src_edwards.table = None -> from base Src_edwards.table 0 i f vs = base f vs.
Proof. intros H. unfold from. cbn [Nat.add]. destruct (snd i); cbn [call]; now rewrite H. Qed.
Lemma lawful_klaws : klaws p d nbits ok ok (fun v => ok v /\ canon v) den (fun v i => Z.testbit (den v mod p) i) mask (from base Src_edwards.table 0).
Proof.
  pose proof (eqc p PR) as Q. constructor; auto.
  - intros a b A B. destruct (law_mul _ _ _ _ _ _ _ _ LW a b A B) as (r & u & v & E & O & D). exists r, u, v. rewrite <- Q. split; auto. intros i. now rewrite at_base.
  - intros a b A B. destruct (law_add _ _ _ _ _ _ _ _ LW a b A B) as (r & u & v & E & O & D). exists r, u, v. rewrite <- Q. split; auto. intros i. now rewrite at_base.
  - intros a b A B. destruct (law_sub _ _ _ _ _ _ _ _ LW a b A B) as (r & u & v & E & O & D). exists r, u, v. rewrite <- Q. split; auto. intros i. now rewrite at_base.
  - intros a A. destruct (law_squared _ _ _ _ _ _ _ _ LW a A) as (r & u & E & O & D). exists r, u. rewrite <- Q. split; auto. intros i. now rewrite at_base.
  - intros a A. destruct (law_small_mul _ _ _ _ _ _ _ _ LW a A) as (r & u & v & E & O & D). exists r, u, v. rewrite <- Q. split; auto. intros i. now rewrite at_base.
  - destruct (law_zero _ _ _ _ _ _ _ _ LW) as (r & E & O & D). exists r. rewrite <- Q. split; auto. intros i. now rewrite at_base.
  - destruct (law_one _ _ _ _ _ _ _ _ LW) as (r & E & O & D). exists r. rewrite <- Q. split; auto. intros i. now rewrite at_base.
  - destruct (law_d _ _ _ _ _ _ _ _ LW) as (r & E & O & D). exists r. rewrite <- Q. split; auto. intros i. now rewrite at_base.
  - destruct (law_nbits _ _ _ _ _ _ _ _ LW) as (E & B & _). split; auto. intros i. now rewrite at_base.
  - intros a A. destruct (law_normalize _ _ _ _ _ _ _ _ LW a A) as (r & E & O & C & D). exists r. split; auto. intros i. now rewrite at_base.
  - intros a j (A & C) J. destruct (law_bit _ _ _ _ _ _ _ _ LW a j A C J) as (u & v & E). exists u, v. intros i. now rewrite at_base.
  - intros b. destruct (law_filled _ _ _ _ _ _ _ _ LW b) as (u & E). exists u. intros i. now rewrite at_base.
  - intros b x y X Y. destruct (law_select _ _ _ _ _ _ _ _ LW b x y X Y) as (x' & y' & r & u & v & w & E1 & E2 & E3 & O & D).
    exists x', y', r, u, v, w. rewrite <- Q. repeat split; auto; intros i; now rewrite at_base.
Qed.
Let KL := lawful_klaws.

Lemma deep n f vs r : calls base Src_edwards.table n f vs r -> (n <= 16)%nat -> forall md, curve_call md base f vs = Ok r.
Proof. intros C H md. apply C. exact H. Qed.

Lemma sum_runs P Q : all_ok ok P -> all_ok ok Q -> exists R, sum_calls base P Q R /\ all_ok ok R /\
  add_spec p d (den (eX P)) (den (eY P)) (den (eZ P)) (den (eT P)) (den (eX Q)) (den (eY Q)) (den (eZ Q)) (den (eT Q))
    (den (eX R)) (den (eY R)) (den (eZ R)) (den (eT R)).
Proof.
  destruct P as [X1 Y1 Z1 T1], Q as [X2 Y2 Z2 T2]. unfold all_ok. cbn [eX eY eZ eT]. intros (A1 & A2 & A3 & A4) (B1 & B2 & B3 & B4).
  destruct (add_ref_call _ _ _ _ _ _ _ _ _ _ _ _ lookup_id KL _ _ _ _ _ _ _ _ A1 A2 A3 A4 B1 B2 B3 B4) as (X & Y & Z & T & C & O1 & O2 & O3 & O4 & S).
  destruct (add_val_call _ _ lookup_id _ _ _ _ _ _ _ _ _ _ _ _ _ _ C eq_refl) as (C2 & C3 & C4).
  exists (Ext X Y Z T). cbn [eX eY eZ eT]. split; [|auto]. intros md. unfold coords. cbn [eX eY eZ eT app].
  repeat split; eapply deep; eauto; lia.
Qed.
Lemma double_runs P : ok (eX P) -> ok (eY P) -> ok (eZ P) -> exists R, double_calls base P R /\ all_ok ok R /\
  double_spec p (den (eX P)) (den (eY P)) (den (eZ P)) (den (eX R)) (den (eY R)) (den (eZ R)) (den (eT R)).
Proof.
  destruct P as [X1 Y1 Z1 T1]. cbn [eX eY eZ eT]. intros A1 A2 A3.
  destruct (double_call _ _ _ _ _ _ _ _ _ _ _ _ lookup_id KL _ _ _ T1 A1 A2 A3) as (X & Y & Z & T & C & O1 & O2 & O3 & O4 & S).
  pose proof (doubled_call _ _ lookup_id _ _ _ _ _ _ _ _ _ C) as C2.
  exists (Ext X Y Z T). unfold all_ok. cbn [eX eY eZ eT]. split; [|auto]. intros md. unfold coords. cbn [eX eY eZ eT app].
  split; eapply deep; eauto; lia.
Qed.
Lemma triple_runs P : ok (eX P) -> ok (eY P) -> ok (eZ P) -> exists R, triple_calls base P R /\ all_ok ok R /\
  triple_spec p (den (eX P)) (den (eY P)) (den (eZ P)) (den (eX R)) (den (eY R)) (den (eZ R)) (den (eT R)).
Proof.
  destruct P as [X1 Y1 Z1 T1]. cbn [eX eY eZ eT]. intros A1 A2 A3.
  destruct (triple_call _ _ _ _ _ _ _ _ _ _ _ _ lookup_id KL _ _ _ T1 A1 A2 A3) as (X & Y & Z & T & C & O1 & O2 & O3 & O4 & S).
  pose proof (tripled_call _ _ lookup_id _ _ _ _ _ _ _ _ _ C) as C2.
  exists (Ext X Y Z T). unfold all_ok. cbn [eX eY eZ eT]. split; [|auto]. intros md. unfold coords. cbn [eX eY eZ eT app].
  split; eapply deep; eauto; lia.
Qed.

Lemma add_correct P Q A B C : all_ok ok P -> all_ok ok Q -> stands_for p den P A -> stands_for p den Q B -> edwards_sum p d A B C ->
  exists R, sum_calls base P Q R /\ all_ok ok R /\ stands_for p den R C.
Proof.
  intros OP OQ SP SQ SU. destruct (sum_runs P Q OP OQ) as (R & CR & OR & AS). exists R. split; [exact CR|split; [exact OR|]].
  exact (add_formulas p PR d _ _ _ _ _ _ _ _ _ _ _ _ A B C SP SQ SU AS).
Qed.
Lemma add_complete P Q A B : non_square p d -> all_ok ok P -> all_ok ok Q -> on_curve p d A -> on_curve p d B ->
  stands_for p den P A -> stands_for p den Q B ->
  exists R C, sum_calls base P Q R /\ all_ok ok R /\ stands_for p den R C /\ edwards_sum p d A B C /\ on_curve p d C.
Proof.
  intros N OP OQ CA CB SP SQ. destruct (complete p PR d A B N CA CB) as (C & S).
  destruct (add_correct P Q A B C OP OQ SP SQ S) as (R & R1 & R2 & R3). exists R, C. split; [exact R1|split; [exact R2|split; [exact R3|split; [exact S|]]]].
  exact (sum_on_curve p PR d A B C CA CB S).
Qed.
Lemma double_correct P A C : ok (eX P) -> ok (eY P) -> ok (eZ P) -> stands_for_xyz p den P A -> on_curve p d A -> edwards_sum p d A A C ->
  exists R, double_calls base P R /\ all_ok ok R /\ stands_for p den R C.
Proof.
  intros O1 O2 O3 SP OC SU. destruct (double_runs P O1 O2 O3) as (R & CR & OR & DS). exists R. split; [exact CR|split; [exact OR|]].
  exact (double_formulas p PR d _ _ _ _ _ _ _ A C SP OC SU DS).
Qed.
Lemma same_affine P Q A : stands_for p den P A -> stands_for p den Q A ->
  eqp p (den (eX P) * den (eZ Q)) (den (eX Q) * den (eZ P)) /\ eqp p (den (eY P) * den (eZ Q)) (den (eY Q) * den (eZ P)).
Proof.
  unfold stands_for, denotes. rewrite !(eqc p PR). intros (_ & X1 & Y1 & _) (_ & X2 & Y2 & _). rewrite <- X1, <- X2, <- Y1, <- Y2.
  split; apply cong_eq; ring.
Qed.
Lemma double_agrees P A : non_square p d -> all_ok ok P -> on_curve p d A -> stands_for p den P A ->
  exists R S, double_calls base P R /\ sum_calls base P P S /\
    eqp p (den (eX R) * den (eZ S)) (den (eX S) * den (eZ R)) /\ eqp p (den (eY R) * den (eZ S)) (den (eY S) * den (eZ R)).
Proof.
  intros N OP OC SP. destruct (complete p PR d A A N OC OC) as (C & SU).
  destruct (add_correct P P A A C OP OP SP SP SU) as (S & S1 & _ & S2).
  assert (SX : stands_for_xyz p den P A) by (destruct SP as (a & b & c & _); split; [exact a|split; [exact b|exact c]]).
  destruct OP as (O1 & O2 & O3 & _). destruct (double_correct P A C O1 O2 O3 SX OC SU) as (R & R1 & _ & R2).
  exists R, S. split; [exact R1|split; [exact S1|]]. exact (same_affine R S C R2 S2).
Qed.
Lemma triple_exact P A B C : p <> 2 -> ok (eX P) -> ok (eY P) -> ok (eZ P) -> stands_for_xyz p den P A -> on_curve p d A ->
  edwards_sum p d A A B -> edwards_sum p d B A C ->
  exists R, triple_calls base P R /\ all_ok ok R /\
    eqp p (snd C * den (eZ R)) (den (eY R)) /\ eqp p (den (eT R) * den (eZ R)) (den (eX R) * den (eY R)) /\
    (stands_for p den R C <-> eqp p (fst C) 0).
Proof.
  intros P2 O1 O2 O3 SP OC SB SC. destruct (triple_runs P O1 O2 O3) as (R & CR & OR & TS). exists R. split; [exact CR|split; [exact OR|]].
  exact (triple_formulas p PR d _ _ _ _ _ _ _ A B C P2 SP OC SB SC TS).
Qed.
Lemma zero_runs : exists R, zero_calls base R /\ all_ok ok R /\
  cong p (den (eX R)) 0 /\ cong p (den (eY R)) 1 /\ cong p (den (eZ R)) 1 /\ cong p (den (eT R)) 1.
Proof.
  destruct (zero_call _ _ _ _ _ _ _ _ _ _ _ _ lookup_id KL) as (X & Y & Z & T & C & O1 & O2 & O3 & O4 & D).
  exists (Ext X Y Z T). unfold all_ok. cbn [eX eY eZ eT]. split; [|auto]. intros md. unfold coords. cbn [eX eY eZ eT]. eapply deep; [exact C|lia].
Qed.
Lemma zero_exact P A : ~ eqp p d 0 -> p <> 2 -> all_ok ok P -> stands_for p den P A -> on_curve p d A ->
  exists O R, zero_calls base O /\ stands_for_xyz p den O neutral /\ sum_calls base P O R /\
    (stands_for p den R A <-> eqp p (fst A * snd A) 0).
Proof.
  intros ND P2 OP SP OC. destruct zero_runs as (O & CO & OO & D1 & D2 & D3 & D4).
  destruct (sum_runs P O OP OO) as (R & CR & OR & AS). exists O, R. split; [exact CO|split; [|split; [exact CR|]]].
  - unfold stands_for_xyz, denotes_xyz, neutral. cbn [fst snd]. rewrite !(eqc p PR), D1, D2, D3. split; [apply zp_one; auto|]. split; apply cong_eq; ring.
  - apply (zero_formulas p PR d _ _ _ _ _ _ _ _ A ND P2 SP OC). unfold add_spec in AS. cbv zeta in *. rewrite D1, D2, D3, D4 in AS. exact AS.
Qed.
Lemma init_exact P x y : ok x -> ok y ->
  exists R, init_calls base P x y R /\ (ok (eX R) /\ ok (eY R) /\ ok (eZ R)) /\ all_ok ok R /\ stands_for_xyz p den R (den x, den y) /\
    (stands_for p den R (den x, den y) <-> eqp p (den x * den y) 1).
Proof.
  intros OX OY. destruct P as [X0 Y0 Z0 T0].
  destruct (init_call _ _ _ _ _ _ _ _ _ _ _ _ lookup_id KL X0 Y0 Z0 T0 x y) as (Z & T & C & O3 & O4 & D3 & D4).
  exists (Ext x y Z T). cbn [eX eY eZ eT]. split; [|split; [auto|split; [split; auto|]]].
  - intros md. unfold coords. cbn [eX eY eZ eT app]. eapply deep; [exact C|lia].
  - apply (init_formulas p PR (den x) (den y)); auto; reflexivity.
Qed.
Lemma ladder_exact P n : all_ok ok P -> ok n -> canon n -> exists R, ladder_calls base P n R /\ all_ok ok R /\
  residues p den R = quad_ladder p d (Z.testbit (den n mod p)) (Z.to_nat nbits) (0 mod p, 1 mod p, 1 mod p, 1 mod p) (residues p den P).
Proof.
  destruct P as [X1 Y1 Z1 T1]. unfold all_ok, residues. cbn [eX eY eZ eT]. intros (A1 & A2 & A3 & A4) N C.
  destruct (ladder_call _ _ _ _ _ _ _ _ _ _ _ _ (prime_nz p PR) lookup_id KL X1 Y1 Z1 T1 n A1 A2 A3 A4 (conj N C)) as (X & Y & Z & T & K & O1 & O2 & O3 & O4 & Q).
  exists (Ext X Y Z T). cbn [eX eY eZ eT]. split; [|split; [auto|exact Q]]. intros md. unfold coords. cbn [eX eY eZ eT app]. eapply deep; [exact K|lia].
Qed.
Lemma scalar_mult_exact P n : all_ok ok P -> ok n -> exists R n', scalar_mult_calls base P n R n' /\ all_ok ok R /\
  ok n' /\ canon n' /\ eqp p (den n') (den n) /\
  residues p den R = quad_ladder p d (Z.testbit (den n mod p)) (Z.to_nat nbits) (0 mod p, 1 mod p, 1 mod p, 1 mod p) (residues p den P).
Proof.
  destruct P as [X1 Y1 Z1 T1]. unfold all_ok, residues. cbn [eX eY eZ eT]. intros (A1 & A2 & A3 & A4) N.
  destruct (scalar_mult_call _ _ _ _ _ _ _ _ _ _ _ _ (prime_nz p PR) lookup_id KL X1 Y1 Z1 T1 n A1 A2 A3 A4 N) as (X & Y & Z & T & r & C & E & O1 & O2 & O3 & O4 & Q).
  exists (Ext X Y Z T), r. cbn [eX eY eZ eT].
  destruct (law_normalize _ _ _ _ _ _ _ _ LW n N) as (r' & E' & L1 & L2 & L3). specialize (E Debug 0%nat ltac:(lia)).
  pose proof (at_base (Debug, 0%nat) "F::normalize" [n] eq_refl) as AB. unfold from in AB. cbn [fst snd Nat.add] in AB. rewrite AB, E' in E. injection E as <-.
  split; [|split; [auto|split; [exact L1|split; [exact L2|split; [exact L3|]]]]].
  - intros md. unfold coords. cbn [eX eY eZ eT app]. eapply deep; [exact C|lia].
  - unfold eqp in L3. rewrite <- L3. exact Q.
Qed.
Lemma ladder_total P n : all_ok ok P -> ok n -> canon n -> exists R, ladder_calls base P n R /\ all_ok ok R.
Proof. intros A N C. destruct (ladder_exact P n A N C) as (R & K & O & _). eauto. Qed.
Lemma scalar_mult_total P n : all_ok ok P -> ok n -> exists R n', scalar_mult_calls base P n R n' /\ all_ok ok R /\
  ok n' /\ canon n' /\ eqp p (den n') (den n).
Proof. intros A N. destruct (scalar_mult_exact P n A N) as (R & n' & K & O & L1 & L2 & L3 & _). exists R, n'. auto. Qed.
Lemma sum_residues P Q : all_ok ok P -> all_ok ok Q -> exists R, sum_calls base P Q R /\ all_ok ok R /\
  residues p den R = quad_sum p d (residues p den P) (residues p den Q).
Proof. intros A B. destruct (sum_runs P Q A B) as (R & C & O & S). exists R. split; [exact C|split; [exact O|]]. exact (add_quad p d (prime_nz p PR) _ _ _ _ _ _ _ _ _ _ _ _ S). Qed.
Lemma double_residues P : ok (eX P) -> ok (eY P) -> ok (eZ P) -> exists R, double_calls base P R /\ all_ok ok R /\
  residues p den R = quad_double p (residues p den P).
Proof. intros A1 A2 A3. destruct (double_runs P A1 A2 A3) as (R & C & O & S). exists R. split; [exact C|split; [exact O|]]. exact (double_quad p (prime_nz p PR) _ _ _ _ _ _ _ _ S). Qed.
Lemma triple_residues P : ok (eX P) -> ok (eY P) -> ok (eZ P) -> exists R, triple_calls base P R /\ all_ok ok R /\
  residues p den R = quad_triple p (residues p den P).
Proof. intros A1 A2 A3. destruct (triple_runs P A1 A2 A3) as (R & C & O & S). exists R. split; [exact C|split; [exact O|]]. exact (triple_quad p (prime_nz p PR) _ _ _ _ _ _ _ _ S). Qed.
Lemma formulas_claim P Q n : all_ok ok P -> all_ok ok Q -> ok n ->
  (exists R, sum_calls base P Q R /\ all_ok ok R /\ residues p den R = quad_sum p d (residues p den P) (residues p den Q)) /\
  (exists R, double_calls base P R /\ all_ok ok R /\ residues p den R = quad_double p (residues p den P)) /\
  (exists R, triple_calls base P R /\ all_ok ok R /\ residues p den R = quad_triple p (residues p den P)) /\
  (exists R n', scalar_mult_calls base P n R n' /\ all_ok ok R /\ ok n' /\ canon n' /\ eqp p (den n') (den n) /\
    residues p den R = quad_ladder p d (Z.testbit (den n mod p)) (Z.to_nat nbits) (0 mod p, 1 mod p, 1 mod p, 1 mod p) (residues p den P)).
Proof.
  intros HP HQ Hn. pose proof HP as (H1 & H2 & H3 & _). split; [exact (sum_residues P Q HP HQ)|].
  split; [exact (double_residues P H1 H2 H3)|]. split; [exact (triple_residues P H1 H2 H3)|exact (scalar_mult_exact P n HP Hn)].
Qed.
Lemma double_complete P A : non_square p d -> ok (eX P) -> ok (eY P) -> ok (eZ P) -> on_curve p d A -> stands_for_xyz p den P A ->
  exists R C, double_calls base P R /\ all_ok ok R /\ stands_for p den R C /\ edwards_sum p d A A C /\ on_curve p d C.
Proof.
  intros N O1 O2 O3 CA SP. destruct (complete p PR d A A N CA CA) as (C & S).
  destruct (double_correct P A C O1 O2 O3 SP CA S) as (R & R1 & R2 & R3). exists R, C. split; [exact R1|split; [exact R2|split; [exact R3|split; [exact S|]]]].
  exact (sum_on_curve p PR d A A C CA CA S).
Qed.
Lemma init_sharp P x y : ok x -> ok y ->
  exists R, init_calls base P x y R /\ all_ok ok R /\ stands_for_xyz p den R (den x, den y) /\
    (stands_for p den R (den x, den y) <-> eqp p (den x * den y) 1).
Proof.
  intros OX OY. destruct (init_exact P x y OX OY) as (R & C & _ & O & S & E). exists R. split; [exact C|split; [exact O|split; [exact S|exact E]]].
Qed.
Lemma init_double P x y C : ok x -> ok y -> on_curve p d (den x, den y) -> edwards_sum p d (den x, den y) (den x, den y) C ->
  exists R S, init_calls base P x y R /\ double_calls base R S /\ all_ok ok S /\ stands_for p den S C.
Proof.
  intros OX OY OC SU. destruct (init_exact P x y OX OY) as (R & CR & (O1 & O2 & O3) & _ & S & _).
  destruct (double_correct R _ C O1 O2 O3 S OC SU) as (T & T1 & T2 & T3). exists R, T. split; [exact CR|split; [exact T1|split; [exact T2|exact T3]]].
Qed.
End L.

(** ** The integers mod p are a lawful field *)
Lemma ideal_lawful p d nbits : 1 < p -> 0 < nbits < 2 ^ 31 -> p <= 2 ^ nbits ->
  lawful p d nbits (ideal_ok p) (fun _ => True) ideal_den ideal_mask (ideal_field p d nbits).
Proof.
  intros HP HN HB.
  assert (M : forall z, ideal_ok p (VInt (z mod p))) by (intros z; exists (z mod p); split; auto; apply Z.mod_pos_bound; lia).
  assert (E : forall z, eqp p (z mod p) z) by (intros z; unfold eqp; apply Z.mod_mod; lia).
  constructor.
  - intros a b (x & -> & X) (y & -> & Y). do 3 eexists. split; [reflexivity|]. split; [apply M|apply E].
  - intros a b (x & -> & X) (y & -> & Y). do 3 eexists. split; [reflexivity|]. split; [apply M|apply E].
  - intros a b (x & -> & X) (y & -> & Y). do 3 eexists. split; [reflexivity|]. split; [apply M|apply E].
  - intros a (x & -> & X). do 2 eexists. split; [reflexivity|]. split; [apply M|apply E].
  - intros a (x & -> & X). do 3 eexists. split; [reflexivity|]. split; [apply M|apply E].
  - eexists. split; [reflexivity|]. split; [exists 0; split; auto; lia|reflexivity].
  - eexists. split; [reflexivity|]. split; [apply M|apply E].
  - eexists. split; [reflexivity|]. split; [apply M|apply E].
  - intros a (x & -> & X). eexists. split; [reflexivity|]. split; [exists x; auto|]. split; reflexivity.
  - split; [reflexivity|]. split; [lia|auto].
  - intros a i (x & -> & X) _ I. do 2 eexists. cbn [ideal_den]. rewrite Z.mod_small by lia. reflexivity.
  - intros b. destruct b; eexists; reflexivity.
  - intros b x y (a & -> & A) (c & -> & C). unfold ideal_mask. destruct b; cbn [negb].
    + do 6 eexists. split; [reflexivity|split; [reflexivity|split; [reflexivity|]]]. rewrite Z.land_m1_r, Z.land_0_r, Z.lor_0_r. split; [exists a; auto|reflexivity].
    + do 6 eexists. split; [reflexivity|split; [reflexivity|split; [reflexivity|]]]. rewrite Z.land_m1_r, Z.land_0_r, Z.lor_0_l. split; [exists c; auto|reflexivity].
Qed.

(** ** The curve x^2+y^2 = 1+2x^2y^2 mod 13 and its point (4,4) *)
Definition small_field := ideal_field 13 2 4.
Definition small_point : ext := Ext (VInt 4) (VInt 4) (VInt 1) (VInt 3).
Lemma small_lawful : prime 13 /\ lawful 13 2 4 (ideal_ok 13) (fun _ => True) ideal_den ideal_mask small_field.
Proof.
  split; [|apply ideal_lawful; lia]. apply prime_intro; [lia|]. intros n N.
  assert (C : n = 1 \/ n = 2 \/ n = 3 \/ n = 4 \/ n = 5 \/ n = 6 \/ n = 7 \/ n = 8 \/ n = 9 \/ n = 10 \/ n = 11 \/ n = 12) by lia.
  unfold rel_prime. repeat (destruct C as [->|C]; [apply Zgcd_1_rel_prime; reflexivity|]). subst. apply Zgcd_1_rel_prime. reflexivity.
Qed.
Lemma small_non_square : non_square 13 2.
Proof.
  intros r H. unfold eqp in H. rewrite Z.mul_mod in H by lia. pose proof (Z.mod_pos_bound r 13 ltac:(lia)) as B.
  assert (C : r mod 13 = 0 \/ r mod 13 = 1 \/ r mod 13 = 2 \/ r mod 13 = 3 \/ r mod 13 = 4 \/ r mod 13 = 5 \/ r mod 13 = 6 \/ r mod 13 = 7 \/ r mod 13 = 8
    \/ r mod 13 = 9 \/ r mod 13 = 10 \/ r mod 13 = 11 \/ r mod 13 = 12) by lia.
  repeat (destruct C as [C|C]; [rewrite C in H; discriminate H|]). rewrite C in H. discriminate H.
Qed.
Lemma small_point_ok : all_ok (ideal_ok 13) small_point /\ stands_for 13 ideal_den small_point (4, 4) /\ on_curve 13 2 (4, 4).
Proof.
  split; [|split].
  - repeat split; eexists; split; try reflexivity; lia.
  - repeat split; vm_compute; congruence.
  - reflexivity.
Qed.

(** ** Counterexamples over the small field *)
Lemma coords_inj P Q : coords P = coords Q -> P = Q.
Proof. destruct P as [a b c e], Q as [a2 b2 c2 e2]. unfold coords. cbn [eX eY eZ eT]. congruence. Qed.
Ltac small_sum := repeat split; vm_compute; congruence.
Lemma ideal_small z : 0 <= z < 13 -> ideal_ok 13 (VInt z).
Proof. intros H. exists z. auto. Qed.
Lemma triple_refuted : ~ (forall p d nbits ok canon den mask base, prime p -> lawful p d nbits ok canon den mask base ->
  forall P A B C, p <> 2 -> all_ok ok P -> stands_for p den P A -> on_curve p d A -> edwards_sum p d A A B -> edwards_sum p d B A C ->
  exists R, triple_calls base P R /\ stands_for p den R C).
Proof.
  intros H. destruct small_lawful as (PR & LW). destruct small_point_ok as (O & S & C).
  destruct (H _ _ _ _ _ _ _ _ PR LW small_point (4, 4) (1, 0) (4, 9) ltac:(lia) O S C ltac:(small_sum) ltac:(small_sum)) as (R & CR & SR).
  destruct (CR Debug) as (E & _).
  assert (V : curve_call Debug small_field "P::triple" (coords small_point) = Ok ([], coords (Ext (VInt 10) (VInt 10) (VInt 4) (VInt 12)))) by (vm_compute; reflexivity).
  rewrite V in E. injection E as F1 F2 F3 F4. destruct R as [rX rY rZ rT]. cbn [eX eY eZ eT] in *. subst. destruct SR as (_ & X & _). vm_compute in X. discriminate X.
Qed.
Lemma zero_refuted : ~ (forall p d nbits ok canon den mask base, prime p -> lawful p d nbits ok canon den mask base ->
  forall P A, p <> 2 -> ~ eqp p d 0 -> all_ok ok P -> stands_for p den P A -> on_curve p d A ->
  exists O R, zero_calls base O /\ sum_calls base P O R /\ stands_for p den R A).
Proof.
  intros H. destruct small_lawful as (PR & LW). destruct small_point_ok as (O & S & C).
  destruct (H _ _ _ _ _ _ _ _ PR LW small_point (4, 4) ltac:(lia) ltac:(discriminate) O S C) as (Z & R & CZ & CR & SR).
  pose proof (CZ Debug) as E0.
  assert (V0 : curve_call Debug small_field "P::zero" [] = Ok (coords (Ext (VInt 0) (VInt 1) (VInt 1) (VInt 1)), [])) by (vm_compute; reflexivity).
  rewrite V0 in E0. injection E0 as E1 E2 E3 E4. destruct (CR Debug) as (E & _). unfold coords at 2 4 in E. rewrite <- E1, <- E2, <- E3, <- E4 in E.
  assert (V : curve_call Debug small_field "P::add_assign(&P)" (coords small_point ++ [VInt 0; VInt 1; VInt 1; VInt 1]) =
    Ok ([], coords (Ext (VInt 6) (VInt 2) (VInt 4) (VInt 3)) ++ [VInt 0; VInt 1; VInt 1; VInt 1])) by (vm_compute; reflexivity).
  rewrite V in E. injection E as F1 F2 F3 F4. destruct R as [rX rY rZ rT]. cbn [eX eY eZ eT] in *. subst. destruct SR as (_ & X & _). vm_compute in X. discriminate X.
Qed.
Lemma init_refuted : ~ (forall p d nbits ok canon den mask base, prime p -> lawful p d nbits ok canon den mask base ->
  forall P x y, ok x -> ok y -> on_curve p d (den x, den y) ->
  exists R, init_calls base P x y R /\ stands_for p den R (den x, den y)).
Proof.
  intros H. destruct small_lawful as (PR & LW). destruct small_point_ok as (_ & _ & C).
  destruct (H _ _ _ _ _ _ _ _ PR LW small_point (VInt 4) (VInt 4) ltac:(apply ideal_small; lia) ltac:(apply ideal_small; lia) C) as (R & CR & SR).
  pose proof (CR Debug) as E.
  assert (V : curve_call Debug small_field "P::init" (coords small_point ++ [VInt 4; VInt 4]) =
    Ok ([], coords (Ext (VInt 4) (VInt 4) (VInt 1) (VInt 1)) ++ [VInt 4; VInt 4])) by (vm_compute; reflexivity).
  rewrite V in E. injection E as F1 F2 F3 F4. destruct R as [rX rY rZ rT]. cbn [eX eY eZ eT] in *. subst. destruct SR as (_ & _ & _ & X). vm_compute in X. discriminate X.
Qed.
Lemma scalar_mult_refuted : ~ (forall p d nbits ok canon den mask base, prime p -> lawful p d nbits ok canon den mask base ->
  forall P A n C, p <> 2 -> non_square p d -> all_ok ok P -> stands_for p den P A -> on_curve p d A -> ok n ->
  multiple p d A (Z.to_nat (den n mod p)) C ->
  exists R n', scalar_mult_calls base P n R n' /\ stands_for p den R C).
Proof.
  intros H. destruct small_lawful as (PR & LW). destruct small_point_ok as (O & S & C).
  assert (M : multiple 13 2 (4, 4) (Z.to_nat (ideal_den (VInt 1) mod 13)) (4, 4)).
  { change (Z.to_nat (ideal_den (VInt 1) mod 13)) with 1%nat. apply (multiple_S _ _ _ _ neutral); [constructor; split; reflexivity|small_sum]. }
  destruct (H _ _ _ _ _ _ _ _ PR LW small_point (4, 4) (VInt 1) (4, 4) ltac:(lia) small_non_square O S C ltac:(apply ideal_small; lia) M) as (R & n' & CR & SR).
  pose proof (CR Debug) as E.
  assert (V : curve_call Debug small_field "P::scalar_mult" (coords small_point ++ [VInt 1]) =
    Ok ([], coords (Ext (VInt 3) (VInt 7) (VInt 8) (VInt 1)) ++ [VInt 1])) by (vm_compute; reflexivity).
  rewrite V in E. injection E as F1 F2 F3 F4 F5. destruct R as [rX rY rZ rT]. cbn [eX eY eZ eT] in *. subst. destruct SR as (_ & X & _). vm_compute in X. discriminate X.
Qed.
